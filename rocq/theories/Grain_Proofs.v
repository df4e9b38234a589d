(** Lemmas about the grain speed and the slopes. *)
From Coq Require Import Reals Bool Arith Lia.
From Verif Require Import Base Threshold_Model Threshold_Spec Threshold_Proofs Grain_Model Grain_Spec.
From Coq Require Import Lra.
Open Scope R_scope.

Lemma d_Cd_pos q : good_d q -> 0 < d_Cd q.
Proof.
  intros H. pose proof (d_srho_gt q H) as Hs. pose proof (d_alpha_pos q H) as Ha. destruct H as [H1 [H2 [H3 [H4 [H5 [H6 H7]]]]]].
  unfold d_Cd. assert (0 < d_S q).
  { unfold d_S. apply Rmult_lt_0_compat; [unfold Rdiv; apply Rmult_lt_0_compat; [lra|apply Rinv_0_lt_compat; lra]|]. apply sqrt_lt_R0. apply Rmult_lt_0_compat; [apply Rmult_lt_0_compat|]; lra. }
  assert (0 <= sqrt (2 * d_alpha q) * (512 / 100) / d_S q) by (apply div_nn; [apply Rmult_le_pos; [apply sqrt_pos|lra]|assumption]). apply Rmult_lt_0_compat; [lra|]. apply Rmult_lt_0_compat; lra.
Qed.
Lemma uf_settles q : good_d q -> settles q (d_uf q).
Proof.
  intros H. split. apply d_uf_pos, H. pose proof (d_Cd_pos q H) as Hc. pose proof (d_srho_gt q H) as Hs. destruct H as [H1 [H2 [H3 [H4 [H5 [H6 H7]]]]]].
  unfold d_uf. rewrite sqrt_sqrt.
  - unfold d_srho. field. lra.
  - assert (0 < / (3 * d_Cd q)) by (apply Rinv_0_lt_compat; lra). unfold Rdiv. repeat apply Rmult_le_pos; lra.
Qed.
Lemma settles_unique q w : good_d q -> settles q w -> w = d_uf q.
Proof.
  intros H (Hp & E). destruct (uf_settles q H) as (Hu & E2). rewrite E in E2. pose proof (d_Cd_pos q H) as Hc. destruct H as [H1 [H2 [H3 [H4 [H5 [H6 H7]]]]]]. pose proof PI_RGT_0 as Hpi.
  assert (K : 0 < 1 / 2 * drhoa q * d_Cd q * (PI / 4 * (dsize q * dsize q))). { apply Rmult_lt_0_compat. apply Rmult_lt_0_compat; lra. apply Rmult_lt_0_compat. lra. apply Rmult_lt_0_compat; lra. }
  apply Rmult_eq_reg_l in E2; [|lra]. apply Rsqr_inj; unfold Rsqr; lra.
Qed.
Lemma dir_along (c : air) : 0 < uw c -> along c (d_dir (uw c) (uws c) (ustar c) (ustars c)) (d_dir (uw c) (uwn c) (ustar c) (ustarn c)).
Proof. intros Hw. unfold along, d_dir. destruct (Rle_dec (5 / 100) (ustar c)) as [L | L]; split; intros; try lra; split; field; lra. Qed.
Lemma along_unique c es en es' en' : 0 < uw c -> along c es en -> along c es' en' -> es = es' /\ en = en'.
Proof.
  intros Hw (A1 & A2) (B1 & B2). destruct (Rle_dec (5 / 100) (ustar c)) as [L | L].
  - destruct (A1 L) as (P1 & P2). destruct (B1 L) as (Q1 & Q2). split; apply (Rmult_eq_reg_r (ustar c)); lra.
  - assert (L' : ustar c < 5 / 100) by lra. destruct (A2 L') as (P1 & P2). destruct (B2 L') as (Q1 & Q2). split; apply (Rmult_eq_reg_r (uw c)); lra.
Qed.
Lemma ueff_felt q uth0 us : good_d q -> 0 < uth0 -> felt q uth0 us (d_ueff q uth0 us).
Proof.
  intros H Hu. unfold felt, d_ueff. destruct H as [H1 [H2 [H3 [H4 [H5 [H6 H7]]]]]]. destruct (Rle_dec uth0 us) as [L | L]; split; intros; try lra.
  assert (Z : 0 < d_zm q uth0). { unfold d_zm. apply Rmult_lt_0_compat. apply Rmult_lt_0_compat; lra. apply exp_pos. } field. repeat split; lra.
Qed.
Lemma felt_unique q uth0 us v v' : 0 < dkappa q -> felt q uth0 us v -> felt q uth0 us v' -> v = v'.
Proof. intros Hk (A & B) (C & D). destruct (Rlt_le_dec us uth0) as [L | L]. rewrite (A L), (C L). reflexivity. specialize (B L). specialize (D L). apply (Rmult_eq_reg_l (dkappa q)); lra. Qed.
(** * The lag of the grains *)
Lemma grain_lag q ny nx x y z th a i j us un u w v es en fs fn : good_d q -> 0 < uw (a i j) -> 0 < th i j -> bubble (a i j) = false -> grain_speeds q ny nx x y z th a i j = (us, un, u) ->
  settles q w -> along (a i j) es en -> felt q (th i j) (ustar (a i j)) v -> fs = es + 2 * d_alpha q * slope_s ny nx z x i j -> fn = en + 2 * d_alpha q * slope_n ny z y i j -> fs * fs + fn * fn <> 0 ->
  lags q w fs fn (v * es - us) (v * en - un) /\ u * u = us * us + un * un /\ 0 <= u.
Proof.
  intros Hq Hw Ht Hb E Hs Ha Hf Es En Hne. apply (settles_unique q w Hq) in Hs. subst w. destruct (along_unique _ _ _ _ _ Hw Ha (dir_along _ Hw)) as (A1 & A2).
  pose proof (felt_unique q _ _ _ _ (proj1 (proj2 (proj2 (proj2 (proj2 (proj2 Hq)))))) Hf (ueff_felt q _ (ustar (a i j)) Hq Ht)) as Ev.
  unfold grain_speeds, duran_grainspeed in E. rewrite Hb in E. rewrite <- A1, <- A2, <- Ev, <- Es, <- En in E. pose proof (d_alpha_pos q Hq) as Hal. pose proof (d_uf_pos q Hq) as Hu.
  set (f := d_uf q) in *. set (S := sqrt (2 * d_alpha q)) in *. assert (HS : 0 < S) by (apply sqrt_lt_R0; lra). assert (SS : S * S = 2 * d_alpha q) by (apply sqrt_sqrt; lra).
  assert (HP : 0 < fs * fs + fn * fn) by (pose proof (Rle_0_sqr fs); pose proof (Rle_0_sqr fn); unfold Rsqr in *; lra).
  set (A := sqrt (fs * fs + fn * fn)) in *. assert (HA : 0 < A) by (apply sqrt_lt_R0, HP). assert (AA : A * A = fs * fs + fn * fn) by (apply sqrt_sqrt; lra).
  set (ds := slope_s ny nx z x i j) in *. set (dn := slope_n ny z y i j) in *. injection E as E1 E2 E3.
  assert (L1 : v * es - us = f / (S * A) * fs). { rewrite <- E1, Es, <- SS. field. lra. }
  assert (L2 : v * en - un = f / (S * A) * fn). { rewrite <- E2, En, <- SS. field. lra. }
  split.
  - unfold lags. rewrite L1, L2. split; [|split].
    + replace (f / (S * A) * fs * (f / (S * A) * fs) + f / (S * A) * fn * (f / (S * A) * fn)) with (f / (S * A) * (f / (S * A)) * (fs * fs + fn * fn)) by ring. rewrite <- AA, <- SS. field. lra.
    + ring.
    + replace (f / (S * A) * fs * fs + f / (S * A) * fn * fn) with (f / (S * A) * (fs * fs + fn * fn)) by ring. apply Rmult_lt_0_compat; [|exact HP]. unfold Rdiv. apply Rmult_lt_0_compat; [exact Hu|]. apply Rinv_0_lt_compat, Rmult_lt_0_compat; assumption.
  - rewrite <- E3. rewrite E1, E2. split; [|apply sqrt_pos]. apply sqrt_sqrt. pose proof (Rle_0_sqr us); pose proof (Rle_0_sqr un); unfold Rsqr in *; lra.
Qed.
Lemma lag_defined q c uth0 : good_d q -> 0 < uw c -> 0 < uth0 -> (exists w, settles q w) /\ (exists es en, along c es en) /\ exists v, felt q uth0 (ustar c) v.
Proof. intros Hq Hw Ht. split. exists (d_uf q). apply uf_settles, Hq. split. do 2 eexists. apply dir_along, Hw. eexists. apply ueff_felt; assumption. Qed.
Lemma grain_lags q ny nx x y z th a i j us un u : good_d q -> 0 < uw (a i j) -> 0 < th i j -> bubble (a i j) = false -> grain_speeds q ny nx x y z th a i j = (us, un, u) ->
  ((exists w, settles q w) /\ (exists es en, along (a i j) es en) /\ exists v, felt q (th i j) (ustar (a i j)) v) /\
  forall w v es en fs fn, settles q w -> along (a i j) es en -> felt q (th i j) (ustar (a i j)) v -> fs = es + 2 * d_alpha q * slope_s ny nx z x i j -> fn = en + 2 * d_alpha q * slope_n ny z y i j -> fs * fs + fn * fn <> 0 ->
    lags q w fs fn (v * es - us) (v * en - un) /\ u * u = us * us + un * un /\ 0 <= u.
Proof. intros Hq Hw Ht Hb E. split. apply lag_defined; assumption. intros. eapply grain_lag; eassumption. Qed.
(** * Slopes *)
Lemma rising f n : (forall k, (k < n)%nat -> f k < f (S k)) -> forall k, (1 <= k)%nat -> (k < n)%nat -> f (k - 1)%nat < f (k + 1)%nat.
Proof. intros H k H1 H2. pose proof (H (k - 1)%nat ltac:(lia)) as A. pose proof (H k H2) as B. replace (S (k - 1)) with k in A by lia. replace (k + 1)%nat with (S k) by lia. lra. Qed.
Lemma inner_s_exact ny nx x y z px py a b c i j : straight ny nx x y px py -> sloping ny nx x y z a b c -> (i <= ny)%nat -> (1 <= j)%nat -> (j < nx)%nat -> inner_s nx z x i j = b.
Proof.
  intros (Hg & Hx & _) Hz Hi H1 H2. unfold inner_s. destruct (Nat.leb_spec 1 j); [|lia]. destruct (Nat.ltb_spec j nx); [|lia]. cbn [andb]. rewrite !Hz by lia. destruct (Hg i (j + 1)%nat) as (E1 & E2); try lia. destruct (Hg i (j - 1)%nat) as (E3 & E4); try lia. rewrite E1, E2, E3, E4. pose proof (rising px nx Hx j H1 H2). field. lra.
Qed.
Lemma inner_n_exact ny nx x y z px py a b c i j : straight ny nx x y px py -> sloping ny nx x y z a b c -> (j <= nx)%nat -> (1 <= i)%nat -> (i < ny)%nat -> inner_n ny z y i j = c.
Proof.
  intros (Hg & _ & Hy) Hz Hj H1 H2. unfold inner_n. destruct (Nat.leb_spec 1 i); [|lia]. destruct (Nat.ltb_spec i ny); [|lia]. cbn [andb]. rewrite !Hz by lia. destruct (Hg (i + 1)%nat j) as (E1 & E2); try lia. destruct (Hg (i - 1)%nat j) as (E3 & E4); try lia. rewrite E1, E2, E3, E4. pose proof (rising py ny Hy i H1 H2). field. lra.
Qed.
Lemma slopes_exact ny nx x y z px py a b c i j : (2 <= ny)%nat -> (2 <= nx)%nat -> straight ny nx x y px py -> sloping ny nx x y z a b c -> (i <= ny)%nat -> (j <= nx)%nat -> slope_s ny nx z x i j = b /\ slope_n ny z y i j = c.
Proof.
  intros Hny Hnx Hg Hz Hi Hj. unfold slope_s, slope_n. destruct (Nat.ltb_spec 0 ny); [|lia]. split.
  - destruct (Nat.eqb_spec nx 1); [lia|]. destruct (Nat.eqb_spec j nx); [apply (inner_s_exact ny nx x y z px py a b c); (assumption || lia)|]. destruct (Nat.eqb_spec j 0); apply (inner_s_exact ny nx x y z px py a b c); (assumption || lia).
  - destruct (Nat.eqb_spec ny 1); [lia|]. destruct (Nat.eqb_spec i ny); [apply (inner_n_exact ny nx x y z px py a b c); (assumption || lia)|]. destruct (Nat.eqb_spec i 0); apply (inner_n_exact ny nx x y z px py a b c); (assumption || lia).
Qed.
Lemma slopes_row nx x y z px py a b c j : straight 0%nat nx x y px py -> sloping 0%nat nx x y z a b c -> (1 <= j)%nat -> (j < nx)%nat -> slope_s 0%nat nx z x 0%nat j = b /\ slope_n 0%nat z y 0%nat j = 0.
Proof. intros Hg Hz H1 H2. split. unfold slope_s. cbn [Nat.ltb Nat.leb]. apply (inner_s_exact 0%nat nx x y z px py a b c); (assumption || lia). reflexivity. Qed.
(** On a flat bed: along the air, faster for more shear. *)
Lemma flat_speed q ny nx x y z px py h th a i j us un u : good_d q -> 0 < uw (a i j) -> 0 < th i j -> bubble (a i j) = false -> (2 <= ny)%nat -> (2 <= nx)%nat -> straight ny nx x y px py -> sloping ny nx x y z h 0 0 -> (i <= ny)%nat -> (j <= nx)%nat ->
  grain_speeds q ny nx x y z th a i j = (us, un, u) -> forall w v es en, settles q w -> along (a i j) es en -> felt q (th i j) (ustar (a i j)) v -> es * es + en * en = 1 ->
  us = (v - w / sqrt (2 * d_alpha q)) * es /\ un = (v - w / sqrt (2 * d_alpha q)) * en.
Proof.
  intros Hq Hw Ht Hb Hny Hnx Hg Hz Hi Hj E w v es en Hs Ha Hf He. destruct (slopes_exact ny nx x y z px py h 0 0 i j Hny Hnx Hg Hz Hi Hj) as (S1 & S2).
  apply (settles_unique q w Hq) in Hs. subst w. destruct (along_unique _ _ _ _ _ Hw Ha (dir_along _ Hw)) as (A1 & A2). pose proof (felt_unique q _ _ _ _ (proj1 (proj2 (proj2 (proj2 (proj2 (proj2 Hq)))))) Hf (ueff_felt q _ (ustar (a i j)) Hq Ht)) as Ev.
  unfold grain_speeds, duran_grainspeed in E. rewrite Hb, S1, S2 in E. rewrite <- A1, <- A2, <- Ev in E. pose proof (d_alpha_pos q Hq) as Hal. assert (HS : 0 < sqrt (2 * d_alpha q)) by (apply sqrt_lt_R0; lra).
  replace ((es + 2 * d_alpha q * 0) * (es + 2 * d_alpha q * 0) + (en + 2 * d_alpha q * 0) * (en + 2 * d_alpha q * 0)) with 1 in E by lra. rewrite sqrt_1 in E. injection E as E1 E2 _. rewrite <- E1, <- E2. split; field; lra.
Qed.
