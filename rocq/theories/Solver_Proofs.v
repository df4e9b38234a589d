(** Lemmas about the solvers. *)
From Coq Require Import QArith Lia Lqa List Bool Arith Setoid.
From Verif Require Import Base Num Utils_Model Solver_Model Solver_Spec Linear.
Import ListNotations.
Open Scope Q_scope.

(** * The matrix *)
Lemma col_below n d (v u : nat -> Q) j : sumn n (fun i => v i * below d u i j) == if Nat.ltb (j + d) n then v (j + d)%nat * u j else 0.
Proof.
  unfold below. destruct (Nat.ltb_spec (j + d) n) as [H|H].
  - rewrite (sumn_single n (j + d)%nat); [rewrite Nat.eqb_refl; reflexivity | exact H |]. intros i _ Hi. destruct (Nat.eqb_spec i (j + d)); [contradiction|ring].
  - apply sumn_zero. intros i Hi. destruct (Nat.eqb_spec i (j + d)); [lia|ring].
Qed.
Lemma col_above n d (v u : nat -> Q) j : (j < n)%nat -> sumn n (fun i => v i * above d u i j) == if Nat.leb d j then v (j - d)%nat * u (j - d)%nat else 0.
Proof.
  intros Hj. unfold above. destruct (Nat.leb_spec d j) as [H|H].
  - rewrite (sumn_single n (j - d)%nat); [|lia|].
    + replace (j - d + d)%nat with j by lia. rewrite Nat.eqb_refl. reflexivity.
    + intros i _ Hi. destruct (Nat.eqb_spec j (i + d)); [lia|ring].
  - apply sumn_zero. intros i Hi. destruct (Nat.eqb_spec j (i + d)); [lia|ring].
Qed.

Section Layout.
Variable k : cfg.
Lemma flat_rc g r c : (c <= nx k)%nat -> flat k g (r * width k + c) = g r c.
Proof.
  intros H. unfold flat, width. assert (c < S (nx k))%nat by lia. rewrite Nat.div_add_l, Nat.div_small, Nat.add_0_r by lia.
  rewrite Nat.add_comm, Nat.mod_add, Nat.mod_small by lia. reflexivity.
Qed.
Lemma rc_of i : (i < cells k)%nat -> exists r c, (r <= ny k)%nat /\ (c <= nx k)%nat /\ i = (r * width k + c)%nat.
Proof.
  intros H. exists (i / width k)%nat, (i mod width k)%nat. assert (width k <> 0)%nat by (unfold width; lia).
  assert (i mod width k < width k)%nat by (apply Nat.mod_upper_bound; assumption). repeat split.
  - assert (i / width k < S (ny k))%nat; [|lia]. apply Nat.div_lt_upper_bound. assumption. unfold cells in H. lia.
  - unfold width in *. lia.
  - rewrite Nat.mul_comm. apply Nat.div_mod. assumption.
Qed.
Lemma rc_lt r c : (r <= ny k)%nat -> (c <= nx k)%nat -> (r * width k + c < cells k)%nat.
Proof. intros. unfold cells. assert (r * width k <= ny k * width k)%nat by (apply Nat.mul_le_mono_r; assumption). cbn [Nat.mul]. unfold width in *. lia. Qed.
Lemma flat_all (P : Q -> Prop) g : (forall r c, (r <= ny k)%nat -> (c <= nx k)%nat -> P (g r c)) -> forall i, (i < cells k)%nat -> P (flat k g i).
Proof. intros H i Hi. destruct (rc_of i Hi) as (r & c & Hr & Hc & ->). rewrite flat_rc by exact Hc. apply H; assumption. Qed.
Definition next_row (r : nat) : nat := if Nat.eqb r (ny k) then 0%nat else S r.
Definition prev_row (r : nat) : nat := match r with O => ny k | S r' => r' end.

(** Sum of column (r, c), every row weighted. *)
Lemma column_sum f (v : grid) r c : (ny k <> 1)%nat -> (2 <= nx k)%nat -> (r <= ny k)%nat -> (c <= nx k)%nat ->
  (forall r c, (r <= ny k)%nat -> (c <= nx k)%nat -> v r c * Am2 k f r c == 0) -> (forall r c, (r <= ny k)%nat -> (c <= nx k)%nat -> v r c * Ap2 k f r c == 0) ->
  sumn (cells k) (fun i => flat k v i * matrix k f i (r * width k + c)) ==
  v r c * A0 k f r c + (if Nat.ltb c (nx k) then v r (S c) * Am1 k f r (S c) else 0) + (if Nat.leb 1 c then v r (c - 1)%nat * Ap1 k f r (c - 1)%nat else 0)
  + (if Nat.eqb (ny k) 0 then 0 else v (next_row r) c * Amx k f (next_row r) c + v (prev_row r) c * Apx k f r c).
Proof.
  intros Hny Hnx Hr Hc Hm2 Hp2. set (j := (r * width k + c)%nat). pose proof (rc_lt r c Hr Hc) as Hj. fold j in Hj.
  assert (HA0 : sumn (cells k) (fun i => flat k v i * above 0 (flat k (A0 k f)) i j) == v r c * A0 k f r c).
  { rewrite col_above by exact Hj. cbn [Nat.leb]. rewrite Nat.sub_0_r. unfold j. rewrite !flat_rc by exact Hc. reflexivity. }
  assert (Hb1 : sumn (cells k) (fun i => flat k v i * below 1 (fun m => flat k (Am1 k f) (m + 1)%nat) i j) ==
    if Nat.ltb c (nx k) then v r (S c) * Am1 k f r (S c) else 0).
  { rewrite col_below. unfold j. destruct (Nat.ltb_spec c (nx k)) as [H|H].
    - replace (r * width k + c + 1)%nat with (r * width k + S c)%nat by lia. destruct (Nat.ltb_spec (r * width k + S c) (cells k)) as [H'|H'].
      rewrite !flat_rc by lia. reflexivity. pose proof (rc_lt r (S c) Hr H). lia.
    - replace (r * width k + c + 1)%nat with (S r * width k + 0)%nat by (unfold width; lia). rewrite !flat_rc by lia.
      unfold Am1. cbn [Nat.eqb]. rewrite orb_true_r. destruct (Nat.ltb _ _); ring. }
  assert (Ha1 : sumn (cells k) (fun i => flat k v i * above 1 (flat k (Ap1 k f)) i j) == if Nat.leb 1 c then v r (c - 1)%nat * Ap1 k f r (c - 1)%nat else 0).
  { rewrite col_above by exact Hj. unfold j. destruct c as [|c].
    - change (Nat.leb 1 0) with false. cbv iota. destruct r as [|r]. reflexivity. replace (S r * width k + 0 - 1)%nat with (r * width k + nx k)%nat by (unfold width; lia).
      rewrite !flat_rc by lia. unfold Ap1. rewrite Nat.eqb_refl, orb_true_r. destruct (Nat.leb _ _); ring.
    - replace (Nat.leb 1 (r * width k + S c)) with true by (symmetry; apply Nat.leb_le; lia). change (Nat.leb 1 (S c)) with true. cbv iota.
      replace (r * width k + S c - 1)%nat with (r * width k + (S c - 1))%nat by lia. rewrite !flat_rc by lia. reflexivity. }
  assert (Hb2 : sumn (cells k) (fun i => flat k v i * below 2 (fun m => flat k (Am2 k f) (m + 2)%nat) i j) == 0).
  { rewrite col_below. destruct (Nat.ltb_spec (j + 2) (cells k)) as [H|H]; [|reflexivity]. destruct (rc_of _ H) as (r' & c' & Hr' & Hc' & ->).
    rewrite !flat_rc by exact Hc'. apply Hm2; assumption. }
  assert (Ha2 : sumn (cells k) (fun i => flat k v i * above 2 (flat k (Ap2 k f)) i j) == 0).
  { rewrite col_above by exact Hj. destruct (Nat.leb_spec 2 j) as [H|H]; [|reflexivity]. assert (Hlt : (j - 2 < cells k)%nat) by lia.
    destruct (rc_of _ Hlt) as (r' & c' & Hr' & Hc' & ->). rewrite !flat_rc by exact Hc'. apply Hp2; assumption. }
  unfold matrix. cbv zeta. destruct (Nat.eqb_spec (ny k) 0) as [Hz|Hz].
  - rewrite (sumn_ext _ _ (fun i => flat k v i * below 2 (fun m => flat k (Am2 k f) (m + 2)%nat) i j
      + flat k v i * below 1 (fun m => flat k (Am1 k f) (m + 1)%nat) i j + flat k v i * above 0 (flat k (A0 k f)) i j
      + flat k v i * above 1 (flat k (Ap1 k f)) i j + flat k v i * above 2 (flat k (Ap2 k f)) i j)) by (intros; fold j; ring).
    rewrite !sumn_plus, HA0, Hb1, Ha1, Hb2, Ha2. ring.
  - assert (Hw : (0 < width k)%nat) by (unfold width; lia).
    assert (Hbw : sumn (cells k) (fun i => flat k v i * below (width k) (fun m => flat k (Amx k f) (width k + m)%nat) i j) ==
      if Nat.eqb r (ny k) then 0 else v (S r) c * Amx k f (S r) c).
    { rewrite col_below. unfold j. replace (r * width k + c + width k)%nat with (S r * width k + c)%nat by lia.
      replace (width k + (r * width k + c))%nat with (S r * width k + c)%nat by lia. rewrite !flat_rc by exact Hc.
      destruct (Nat.eqb_spec r (ny k)) as [->|H].
      - destruct (Nat.ltb_spec (S (ny k) * width k + c) (cells k)) as [H'|H']; [unfold cells in H'; lia | reflexivity].
      - destruct (Nat.ltb_spec (S r * width k + c) (cells k)) as [H'|H']; [reflexivity|]. pose proof (rc_lt (S r) c ltac:(lia) Hc). lia. }
    assert (Haw : sumn (cells k) (fun i => flat k v i * above (width k) (fun m => flat k (Apx k f) (width k + m)%nat) i j) ==
      match r with O => 0 | S r' => v r' c * Apx k f r c end).
    { rewrite col_above by exact Hj. unfold j. destruct r as [|r].
      - destruct (Nat.leb_spec (width k) (0 * width k + c)) as [H|H]; [unfold width in H; lia | reflexivity].
      - destruct (Nat.leb_spec (width k) (S r * width k + c)) as [H|H]; [|lia].
        replace (width k + (S r * width k + c - width k))%nat with (S r * width k + c)%nat by lia.
        replace (S r * width k + c - width k)%nat with (r * width k + c)%nat by lia. rewrite !flat_rc by exact Hc. reflexivity. }
    assert (Hbj : sumn (cells k) (fun i => flat k v i * below (width k * ny k) (flat k (Apx k f)) i j) ==
      match r with O => v (ny k) c * Apx k f r c | S _ => 0 end).
    { rewrite col_below. unfold j. destruct r as [|r].
      - replace (0 * width k + c + width k * ny k)%nat with (ny k * width k + c)%nat by lia. rewrite !flat_rc by exact Hc.
        destruct (Nat.ltb_spec (ny k * width k + c) (cells k)) as [H'|H']; [reflexivity|]. pose proof (rc_lt (ny k) c ltac:(lia) Hc). lia.
      - destruct (Nat.ltb_spec (S r * width k + c + width k * ny k) (cells k)) as [H'|H']; [unfold cells in H'; lia | reflexivity]. }
    assert (Haj : sumn (cells k) (fun i => flat k v i * above (width k * ny k) (flat k (Amx k f)) i j) ==
      if Nat.eqb r (ny k) then v 0%nat c * Amx k f 0%nat c else 0).
    { rewrite col_above by exact Hj. unfold j. destruct (Nat.eqb_spec r (ny k)) as [->|H].
      - destruct (Nat.leb_spec (width k * ny k) (ny k * width k + c)) as [H'|H']; [|lia].
        replace (ny k * width k + c - width k * ny k)%nat with (0 * width k + c)%nat by lia. rewrite !flat_rc by exact Hc. reflexivity.
      - destruct (Nat.leb_spec (width k * ny k) (r * width k + c)) as [H'|H']; [|reflexivity].
        assert (S r * width k <= ny k * width k)%nat by (apply Nat.mul_le_mono_r; lia). unfold width in *. lia. }
    rewrite (sumn_ext _ _ (fun i => flat k v i * below (width k * ny k) (flat k (Apx k f)) i j
      + flat k v i * below (width k) (fun m => flat k (Amx k f) (width k + m)%nat) i j
      + flat k v i * below 2 (fun m => flat k (Am2 k f) (m + 2)%nat) i j
      + flat k v i * below 1 (fun m => flat k (Am1 k f) (m + 1)%nat) i j + flat k v i * above 0 (flat k (A0 k f)) i j
      + flat k v i * above 1 (flat k (Ap1 k f)) i j + flat k v i * above 2 (flat k (Ap2 k f)) i j
      + flat k v i * above (width k) (fun m => flat k (Apx k f) (width k + m)%nat) i j
      + flat k v i * above (width k * ny k) (flat k (Amx k f)) i j)) by (intros; fold j; ring).
    rewrite !sumn_plus, HA0, Hb1, Ha1, Hb2, Ha2, Hbw, Haw, Hbj, Haj. unfold next_row, prev_row. destruct (Nat.eqb_spec r (ny k)), r; try ring; lia.
Qed.

(** Off the diagonal. *)
Lemma below_sign n d u i j : (i < n)%nat -> i <> j -> (forall m, (m + d < n)%nat -> u m <= 0) -> below d u i j <= 0.
Proof. intros Hi Hij H. unfold below. destruct (Nat.eqb_spec i (j + d)); [apply H; lia | apply Qle_refl]. Qed.
Lemma above_sign n d u i j : (i < n)%nat -> (j < n)%nat -> (forall m, (m + d < n)%nat -> u m <= 0) -> above d u i j <= 0.
Proof. intros Hi Hj H. unfold above. destruct (Nat.eqb_spec j (i + d)); [apply H; lia | apply Qle_refl]. Qed.
Lemma matrix_offdiag f : (ny k = 0 \/ 2 <= ny k)%nat ->
  (forall r c, (r <= ny k)%nat -> (c <= nx k)%nat -> Am2 k f r c <= 0 /\ Ap2 k f r c <= 0 /\ Am1 k f r c <= 0 /\ Ap1 k f r c <= 0 /\ Amx k f r c <= 0 /\ Apx k f r c <= 0) ->
  offdiag_nonpos (cells k) (matrix k f).
Proof.
  intros Hny H i j Hi Hj Hij.
  assert (Hd : above 0 (flat k (A0 k f)) i j <= 0) by (unfold above; destruct (Nat.eqb_spec j (i + 0)); [lia | apply Qle_refl]).
  assert (F : forall g, (forall r c, (r <= ny k)%nat -> (c <= nx k)%nat -> g r c <= 0) -> forall m, (m < cells k)%nat -> flat k g m <= 0)
    by (intros g Hg m Hm; apply (flat_all (fun q => q <= 0) g Hg m Hm)).
  assert (Fm2 := F (Am2 k f) (fun r c Hr Hc => proj1 (H r c Hr Hc))).
  assert (Fp2 := F (Ap2 k f) (fun r c Hr Hc => proj1 (proj2 (H r c Hr Hc)))).
  assert (Fm1 := F (Am1 k f) (fun r c Hr Hc => proj1 (proj2 (proj2 (H r c Hr Hc))))).
  assert (Fp1 := F (Ap1 k f) (fun r c Hr Hc => proj1 (proj2 (proj2 (proj2 (H r c Hr Hc)))))).
  assert (Fmx := F (Amx k f) (fun r c Hr Hc => proj1 (proj2 (proj2 (proj2 (proj2 (H r c Hr Hc))))))).
  assert (Fpx := F (Apx k f) (fun r c Hr Hc => proj2 (proj2 (proj2 (proj2 (proj2 (H r c Hr Hc))))))).
  assert (H2 : below 2 (fun m => flat k (Am2 k f) (m + 2)%nat) i j <= 0) by (apply (below_sign (cells k)); auto).
  assert (H1 : below 1 (fun m => flat k (Am1 k f) (m + 1)%nat) i j <= 0) by (apply (below_sign (cells k)); auto).
  assert (P1 : above 1 (flat k (Ap1 k f)) i j <= 0) by (apply (above_sign (cells k)); auto; intros; apply Fp1; lia).
  assert (P2 : above 2 (flat k (Ap2 k f)) i j <= 0) by (apply (above_sign (cells k)); auto; intros; apply Fp2; lia).
  unfold matrix. cbv zeta. destruct (Nat.eqb_spec (ny k) 0) as [Hz|Hz]. lra.
  assert (Hbj : below (width k * ny k) (flat k (Apx k f)) i j <= 0) by (apply (below_sign (cells k)); auto; intros; apply Fpx; lia).
  assert (Haj : above (width k * ny k) (flat k (Amx k f)) i j <= 0) by (apply (above_sign (cells k)); auto; intros; apply Fmx; lia).
  assert (Hbw : below (width k) (fun m => flat k (Amx k f) (width k + m)%nat) i j <= 0) by (apply (below_sign (cells k)); auto; intros; apply Fmx; lia).
  assert (Haw : above (width k) (fun m => flat k (Apx k f) (width k + m)%nat) i j <= 0) by (apply (above_sign (cells k)); auto; intros; apply Fpx; lia).
  lra.
Qed.
End Layout.

(** * Uniqueness, existence, sign *)
Lemma upw_cases a : (0 <= a /\ upw a = 1) \/ (a < 0 /\ upw a = 0).
Proof. unfold upw. destruct (Qle_bool_spec 0 a); [left | right]; split; try reflexivity; lra. Qed.
Lemma upw_01 a : 0 <= upw a <= 1.
Proof. unfold upw. destruct (Qle_bool 0 a); lra. Qed.
Lemma sgn_abs a : sgn a * a == qabs a.
Proof. unfold sgn, qabs, upw. destruct (Qle_bool 0 a); ring. Qed.

Section Regular.
Variables (k : cfg) (f : flow).
Hypothesis Hs : sensible k.
Hypothesis Hrect : rectangular k f.
Hypothesis Hlat : lateral_uniform k f.
Notation h := (dn f 0%nat 0%nat).
Notation hs c := (ds f 0%nat c).
Notation al := (implicitness k).
Lemma al_nn : 0 <= al.
Proof. unfold implicitness. destruct Hs as (_ & _ & _ & _ & H). destruct (trunk k); lra. Qed.
Lemma ts_pos : 0 < tstep k.
Proof. unfold tstep. destruct Hs as (_ & _ & H & _). destruct (trunk k); lra. Qed.
Lemma Ti_pos : 0 < Ti k.
Proof. unfold Ti. destruct Hs as (_ & _ & _ & H & _). apply Qlt_shift_div_l. exact H. pose proof ts_pos. lra. Qed.
Lemma h_pos : 0 < h.
Proof. destruct (Hrect 0%nat 0%nat ltac:(lia) ltac:(lia)) as (_ & _ & H & _). exact H. Qed.
Lemma hs_pos c : (c <= nx k)%nat -> 0 < hs c.
Proof. intros Hc. destruct (Hrect 0%nat c ltac:(lia) Hc) as (H & _). exact H. Qed.
Lemma cs_eq v r c : (r <= ny k)%nat -> (c <= nx k)%nat -> courant_s k f v r c == tstep k / hs c * v r c.
Proof. intros Hr Hc. destruct (Hrect r c Hr Hc) as (H1 & H2 & H3 & H4). unfold courant_s, dsdni. rewrite <- H2. field. split; lra. Qed.
Lemma cn_eq v r c : (r <= ny k)%nat -> (c <= nx k)%nat -> courant_n k f v r c == tstep k / h * v r c.
Proof. intros Hr Hc. destruct (Hrect r c Hr Hc) as (H1 & H2 & H3 & H4). unfold courant_n, dsdni. rewrite <- H4. field. split; lra. Qed.

Definition one : Q := if trunk k then 1 else 0.
Lemma base0_eq r c : (r <= ny k)%nat -> (c <= nx k)%nat ->
  base0 k f r c == one + al * (tstep k / hs c * qabs (us f r c) + tstep k / h * qabs (un f r c) + Ti k).
Proof. intros Hr Hc. unfold base0. rewrite cs_eq, cn_eq by assumption. rewrite <- !sgn_abs. unfold one. ring. Qed.
Lemma basep1_eq r c : (r <= ny k)%nat -> (c < nx k)%nat -> basep1 k f r c == al * (tstep k / hs c) * (us f r (S c) * (1 - upw (us f r c))).
Proof. intros Hr Hc. unfold basep1. rewrite cs_eq by lia. unfold us_min. destruct (Nat.eqb_spec c (nx k)); [lia|]. ring. Qed.
Lemma basem1_eq r c : (r <= ny k)%nat -> (S c <= nx k)%nat -> basem1 k f r (S c) == - (al * (tstep k / hs (S c)) * (us f r c * upw (us f r (S c)))).
Proof. intros Hr Hc. unfold basem1. rewrite cs_eq by lia. cbn [us_plus]. ring. Qed.
Lemma un_plus_eq r c : (r <= ny k)%nat -> (c <= nx k)%nat -> un_plus f r c == un f r c.
Proof. intros Hr Hc. destruct r; cbn [un_plus]. reflexivity. rewrite (Hlat r), (Hlat (S r)) by lia. reflexivity. Qed.
Lemma un_min_eq r c : (r <= ny k)%nat -> (c <= nx k)%nat -> un_min k f r c == un f r c.
Proof. intros Hr Hc. unfold un_min. destruct (Nat.eqb_spec r (ny k)). reflexivity. rewrite (Hlat r), (Hlat (S r)) by lia. reflexivity. Qed.
Lemma upw_compat a b : a == b -> upw a = upw b.
Proof. intros H. unfold upw. destruct (Qle_bool_spec 0 a), (Qle_bool_spec 0 b); try reflexivity; lra. Qed.
Lemma basepx_eq r c : (r <= ny k)%nat -> (c <= nx k)%nat -> basepx k f r c == al * (tstep k / h) * (un f 0%nat c * (1 - upw (un f 0%nat c))).
Proof. intros Hr Hc. unfold basepx. rewrite cn_eq, un_min_eq, (upw_compat _ _ (Hlat r c Hr Hc)), (Hlat r c) by assumption. ring. Qed.
Lemma basemx_eq r c : (r <= ny k)%nat -> (c <= nx k)%nat -> basemx k f r c == - (al * (tstep k / h) * (un f 0%nat c * upw (un f 0%nat c))).
Proof. intros Hr Hc. unfold basemx. rewrite cn_eq, un_plus_eq, (upw_compat _ _ (Hlat r c Hr Hc)), (Hlat r c) by assumption. ring. Qed.
Lemma al_ts_nn a : 0 < a -> 0 <= al * (tstep k / a).
Proof. intros. apply mul_nn. apply al_nn. apply Qlt_le_weak, Qlt_shift_div_l. assumption. pose proof ts_pos. lra. Qed.

Hypothesis Hg : gathering k f.
Hypothesis He : prescribed_ends k.
Lemma ends : (match offshore k with Uniform | Gradient => False | _ => True end) /\ (onshore_fixed k = true \/ onshore k = Constant) /\ fixed_row k 0 = false /\ forall r, fixed_row k r = false.
Proof.
  destruct He as (H1 & H2 & H3). unfold onshore_fixed, fixed_row. rewrite H3. repeat split.
  - destruct H1 as [-> | [-> | [_ ->]]]; exact I.
  - destruct H2 as [-> | [-> | [-> ->]]]; auto. left. cbn. apply orb_true_r.
Qed.
Lemma Am2_zero r c : Am2 k f r c = 0.
Proof. unfold Am2. destruct ends as (_ & [-> | ->] & _). destruct (Nat.eqb c (nx k)); reflexivity. destruct (onshore_fixed k), (Nat.eqb c (nx k)); reflexivity. Qed.
Lemma Ap2_zero r c : Ap2 k f r c = 0.
Proof. unfold Ap2. destruct ends as (H & _). destruct (Nat.eqb c 0); [|reflexivity]. destruct (offshore k); try reflexivity; contradiction. Qed.
Lemma Ap1_eq r c : Ap1 k f r c = if border k c then 0 else basep1 k f r c.
Proof.
  unfold Ap1, border. destruct ends as (H & _ & _ & Hf). rewrite Hf. cbn [orb]. destruct (Nat.eqb c (nx k)), (Nat.eqb c 0); try reflexivity.
  destruct (offshore k); try reflexivity; contradiction.
Qed.
Lemma Am1_eq r c : Am1 k f r c = if border k c then 0 else basem1 k f r c.
Proof.
  unfold Am1, border. destruct ends as (_ & H & _ & Hf). rewrite Hf. cbn [orb]. destruct (Nat.eqb c 0), (Nat.eqb c (nx k)); try reflexivity.
  destruct H as [-> | ->]. reflexivity. destruct (onshore_fixed k); reflexivity.
Qed.
Lemma A0_eq r c : A0 k f r c = if border k c then 1 else base0 k f r c.
Proof. unfold A0. destruct ends as (_ & _ & _ & Hf). rewrite Hf, orb_false_r. reflexivity. Qed.
Lemma Amx_eq r c : Amx k f r c = if border k c then 0 else basemx k f r c.
Proof. unfold Amx. destruct ends as (_ & _ & _ & Hf). rewrite Hf, orb_false_r. reflexivity. Qed.
Lemma Apx_eq r c : Apx k f r c = if border k c then 0 else basepx k f r c.
Proof. unfold Apx. destruct ends as (_ & _ & _ & Hf). rewrite Hf, orb_false_r. reflexivity. Qed.
Lemma border_spec c : (c <= nx k)%nat -> (border k c = true /\ (c = 0%nat \/ c = nx k)) \/ (border k c = false /\ (1 <= c)%nat /\ (c < nx k)%nat).
Proof. intros. unfold border. destruct (Nat.eqb_spec c 0), (Nat.eqb_spec c (nx k)); cbn [orb]; try (left; split; [reflexivity|lia]). right. split. reflexivity. lia. Qed.

Lemma regular_offdiag : offdiag_nonpos (cells k) (matrix k f).
Proof.
  destruct Hs as (Hny & Hnx & _). apply matrix_offdiag. lia. intros r c Hr Hc. rewrite Am2_zero, Ap2_zero, Am1_eq, Ap1_eq, Amx_eq, Apx_eq.
  destruct (border_spec c Hc) as [[-> _] | [-> [H1 H2]]]. repeat split; apply Qle_refl.
  destruct Hg as [G1 G2]. split; [apply Qle_refl|]. split; [apply Qle_refl|].
  split; [|split; [|split]].
  - destruct c as [|c]; [lia|]. rewrite basem1_eq by lia. specialize (G1 r c Hr H2). pose proof (al_ts_nn (hs (S c)) (hs_pos (S c) Hc)).
    assert (0 <= us f r c * upw (us f r (S c))). { destruct (upw_cases (us f r (S c))) as [[H' ->]|[H' ->]]. specialize (G1 H'). lra. lra. }
    pose proof (mul_nn _ _ H H0). lra.
  - rewrite basep1_eq by lia. specialize (G2 r c (conj Hr (conj H1 H2))). pose proof (al_ts_nn (hs c) (hs_pos c Hc)).
    assert (us f r (S c) * (1 - upw (us f r c)) <= 0). { destruct (upw_cases (us f r c)) as [[H' ->]|[H' ->]]. lra. specialize (G2 H'). lra. }
    apply mul_np; assumption.
  - rewrite basemx_eq by lia. pose proof (al_ts_nn h h_pos). assert (0 <= un f 0%nat c * upw (un f 0%nat c)) by (destruct (upw_cases (un f 0%nat c)) as [[H' ->]|[H' ->]]; lra).
    pose proof (mul_nn _ _ H H0). lra.
  - rewrite basepx_eq by lia. pose proof (al_ts_nn h h_pos). assert (un f 0%nat c * (1 - upw (un f 0%nat c)) <= 0) by (destruct (upw_cases (un f 0%nat c)) as [[H' ->]|[H' ->]]; lra).
    apply mul_np; assumption.
Qed.

(** Weights of the rows: the area of the cell; large at the ends. *)
Definition weights (r c : nat) : Q := if border k c then 1 + al * tstep k * qabs (us f r c) else hs c.
Lemma weights_pos r c : (c <= nx k)%nat -> 0 < weights r c.
Proof.
  intros Hc. unfold weights. destruct (border_spec c Hc) as [[-> _] | [-> _]]. pose proof (qabs_nonneg (us f r c)). pose proof al_nn. pose proof ts_pos.
  pose proof (mul_nn (al * tstep k) (qabs (us f r c)) ltac:(apply mul_nn; lra) H). lra. apply hs_pos. exact Hc.
Qed.
Lemma one_Ti : 0 < one + al * Ti k.
Proof. unfold one, implicitness. pose proof Ti_pos. destruct (trunk k) eqn:E. destruct Hs as (_ & _ & _ & _ & Ha). pose proof (mul_nn (alpha k) (Ti k)). lra. lra. Qed.
Lemma neighbours r c : (r <= ny k)%nat -> (c <= nx k)%nat ->
  let M := if Nat.ltb c (nx k) then weights r (S c) * Am1 k f r (S c) else 0 in
  let P := if Nat.leb 1 c then weights r (c - 1)%nat * Ap1 k f r (c - 1)%nat else 0 in
  - (al * tstep k * qabs (us f r c)) <= M + P.
Proof.
  intros Hr Hc M P. set (t := al * tstep k). assert (Ht : 0 <= t) by (apply mul_nn; [apply al_nn | apply Qlt_le_weak, ts_pos]).
  assert (HM : M == 0 \/ exists q, 0 <= q <= 1 /\ M == - (t * us f r c * q)).
  { unfold M. destruct (Nat.ltb_spec c (nx k)) as [H|H]; [|left; reflexivity]. rewrite Am1_eq. unfold weights. destruct (border_spec (S c) H) as [[Eb _] | [Eb [H1 H2]]]; rewrite Eb.
    left; ring. right. exists (upw (us f r (S c))). split. apply upw_01. rewrite basem1_eq by lia. unfold t. field. pose proof (hs_pos (S c) H). lra. }
  assert (HP : P == 0 \/ exists q, 0 <= q <= 1 /\ P == t * us f r c * q).
  { unfold P. destruct c as [|c]. left; reflexivity. cbn [Nat.leb]. replace (S c - 1)%nat with c by lia. rewrite Ap1_eq. unfold weights.
    destruct (border_spec c ltac:(lia)) as [[Eb _] | [Eb [H1 H2]]]; rewrite Eb. left; ring.
    right. exists (1 - upw (us f r c)). split. pose proof (upw_01 (us f r c)). lra. rewrite basep1_eq by lia. unfold t. field. pose proof (hs_pos c ltac:(lia)). lra. }
  assert (Ha : 0 <= us f r c \/ us f r c < 0) by (destruct (Qlt_le_dec (us f r c) 0); auto).
  assert (HMb : - (t * us f r c) <= M /\ 0 <= us f r c \/ 0 <= M /\ us f r c < 0).
  { destruct Ha as [Ha|Ha]; [left | right]; (split; [|exact Ha]); destruct HM as [-> | (q & Hq & ->)].
    pose proof (mul_nn _ _ Ht Ha); lra. pose proof (mul_nn (t * us f r c) (1 - q) ltac:(apply mul_nn; assumption) ltac:(lra)); lra.
    lra. pose proof (mul_nn (t * - us f r c) q ltac:(apply mul_nn; lra) ltac:(lra)); lra. }
  assert (HPb : 0 <= P /\ 0 <= us f r c \/ t * us f r c <= P /\ us f r c < 0).
  { destruct Ha as [Ha|Ha]; [left | right]; (split; [|exact Ha]); destruct HP as [-> | (q & Hq & ->)].
    lra. apply mul_nn; [apply mul_nn; assumption | lra].
    pose proof (mul_nn t (- us f r c) Ht ltac:(lra)); lra. pose proof (mul_nn (t * - us f r c) (1 - q) ltac:(apply mul_nn; lra) ltac:(lra)); lra. }
  unfold qabs. destruct (Qle_bool_spec 0 (us f r c)); destruct HMb as [[? ?] | [? ?]], HPb as [[? ?] | [? ?]]; lra.
Qed.
Lemma next_row_le r : (r <= ny k)%nat -> (next_row k r <= ny k)%nat.
Proof. intros. unfold next_row. destruct (Nat.eqb_spec r (ny k)); lia. Qed.
Lemma prev_row_le r : (r <= ny k)%nat -> (prev_row k r <= ny k)%nat.
Proof. intros. unfold prev_row. destruct r; lia. Qed.
Lemma laterals r c : (r <= ny k)%nat -> (c <= nx k)%nat ->
  let L := if Nat.eqb (ny k) 0 then 0 else weights (next_row k r) c * Amx k f (next_row k r) c + weights (prev_row k r) c * Apx k f r c in
  if border k c then L == 0 else - (hs c * (al * (tstep k / h)) * qabs (un f r c)) <= L.
Proof.
  intros Hr Hc L. unfold L. destruct (Nat.eqb_spec (ny k) 0) as [Hz|Hz].
  - destruct (border k c). reflexivity. pose proof (mul_nn (hs c * (al * (tstep k / h))) (qabs (un f r c))
      ltac:(apply mul_nn; [apply Qlt_le_weak, hs_pos, Hc | apply al_ts_nn, h_pos]) (qabs_nonneg _)). lra.
  - rewrite Amx_eq, Apx_eq. unfold weights. destruct (border k c) eqn:Eb. ring. rewrite basemx_eq, basepx_eq by (try apply next_row_le; assumption).
    assert (E : qabs (un f r c) == un f 0%nat c * upw (un f 0%nat c) - un f 0%nat c * (1 - upw (un f 0%nat c))).
    { rewrite <- sgn_abs. unfold sgn. rewrite (upw_compat _ _ (Hlat r c Hr Hc)), (Hlat r c Hr Hc). ring. }
    rewrite E. lra.
Qed.
Lemma regular_columns : columns_positive (cells k) (matrix k f) (flat k weights).
Proof.
  split. apply (flat_all k (fun q => 0 < q)). intros; apply weights_pos; assumption.
  intros j Hj. destruct (rc_of k j Hj) as (r & c & Hr & Hc & ->). destruct Hs as (Hny & Hnx & _).
  rewrite column_sum; [| assumption .. | intros; rewrite Am2_zero; ring | intros; rewrite Ap2_zero; ring].
  pose proof (neighbours r c Hr Hc) as HM. cbv zeta in HM. pose proof (laterals r c Hr Hc) as HL. cbv zeta in HL.
  set (M := if Nat.ltb c (nx k) then _ else _) in *. set (P := if Nat.leb 1 c then _ else _) in *. set (L := if Nat.eqb (ny k) 0 then _ else _) in *.
  rewrite A0_eq. unfold weights in *. destruct (border_spec c Hc) as [[Eb _] | [Eb _]]; rewrite Eb in *. lra.
  rewrite base0_eq by assumption. pose proof (hs_pos c Hc) as Hh. pose proof (mul_pos _ _ Hh one_Ti).
  setoid_replace (hs c * (one + al * (tstep k / hs c * qabs (us f r c) + tstep k / h * qabs (un f r c) + Ti k)))
    with (hs c * (one + al * Ti k) + al * tstep k * qabs (us f r c) + hs c * (al * (tstep k / h)) * qabs (un f r c)).
  lra. field. pose proof h_pos. split; lra.
Qed.

Lemma regular_one_solution y : exists x, solves (cells k) (matrix k f) y x /\ forall z, solves (cells k) (matrix k f) y z -> forall i, (i < cells k)%nat -> z i == x i.
Proof. apply (one_solution _ _ (flat k weights)). apply regular_offdiag. apply regular_columns. Qed.
Lemma regular_nonneg y x : solves (cells k) (matrix k f) y x -> (forall i, (i < cells k)%nat -> 0 <= y i) -> forall i, (i < cells k)%nat -> 0 <= x i.
Proof.
  intros Hx Hy. apply (monotone_nonneg _ _ (flat k weights) x regular_offdiag regular_columns). intros i Hi. rewrite (Hx i Hi). apply Hy, Hi.
Qed.
End Regular.

(** * Rows of the matrix *)
Lemma row_below n d (x u : nat -> Q) i : (i < n)%nat -> sumn n (fun j => below d u i j * x j) == if Nat.leb d i then u (i - d)%nat * x (i - d)%nat else 0.
Proof.
  intros Hi. unfold below. destruct (Nat.leb_spec d i) as [H|H].
  - rewrite (sumn_single n (i - d)%nat); [|lia|].
    + replace (i - d + d)%nat with i by lia. rewrite Nat.eqb_refl. reflexivity.
    + intros j _ Hj. destruct (Nat.eqb_spec i (j + d)); [lia|ring].
  - apply sumn_zero. intros j Hj. destruct (Nat.eqb_spec i (j + d)); [lia|ring].
Qed.
Lemma row_above n d (x u : nat -> Q) i : sumn n (fun j => above d u i j * x j) == if Nat.ltb (i + d) n then u i * x (i + d)%nat else 0.
Proof.
  unfold above. destruct (Nat.ltb_spec (i + d) n) as [H|H].
  - rewrite (sumn_single n (i + d)%nat); [rewrite Nat.eqb_refl; reflexivity | exact H |]. intros j _ Hj. destruct (Nat.eqb_spec j (i + d)); [contradiction|ring].
  - apply sumn_zero. intros j Hj. destruct (Nat.eqb_spec j (i + d)); [lia|ring].
Qed.
Lemma row_sum k f x r c : (ny k <> 1)%nat -> (2 <= nx k)%nat -> (r <= ny k)%nat -> (c <= nx k)%nat ->
  mulv (cells k) (matrix k f) x (r * width k + c) ==
  Am2 k f r c * at_cell k x r (c - 2) + Am1 k f r c * at_cell k x r (c - 1) + A0 k f r c * at_cell k x r c
  + Ap1 k f r c * at_cell k x r (S c) + Ap2 k f r c * at_cell k x r (c + 2)
  + (if Nat.eqb (ny k) 0 then 0 else Amx k f r c * at_cell k x (prev_row k r) c + Apx k f (next_row k r) c * at_cell k x (next_row k r) c).
Proof.
  intros Hny Hnx Hr Hc. set (i := (r * width k + c)%nat). pose proof (rc_lt k r c Hr Hc) as Hi. fold i in Hi. unfold at_cell. fold (width k).
  assert (HA0 : sumn (cells k) (fun j => above 0 (flat k (A0 k f)) i j * x j) == A0 k f r c * x (r * width k + c)%nat).
  { rewrite row_above. rewrite Nat.add_0_r. destruct (Nat.ltb_spec i (cells k)); [|lia]. unfold i. rewrite flat_rc by exact Hc. reflexivity. }
  assert (Hb1 : sumn (cells k) (fun j => below 1 (fun m => flat k (Am1 k f) (m + 1)%nat) i j * x j) == Am1 k f r c * x (r * width k + (c - 1))%nat).
  { rewrite row_below by exact Hi. unfold i. destruct c as [|c].
    - unfold Am1. cbn [Nat.eqb]. rewrite orb_true_r. destruct (Nat.leb_spec 1 (r * width k + 0)) as [H|H]; [|ring].
      replace (r * width k + 0 - 1 + 1)%nat with (r * width k + 0)%nat by lia. rewrite flat_rc by lia. cbn [Nat.eqb]. rewrite orb_true_r. ring.
    - destruct (Nat.leb_spec 1 (r * width k + S c)) as [H|H]; [|lia]. replace (r * width k + S c - 1 + 1)%nat with (r * width k + S c)%nat by lia.
      replace (r * width k + (S c - 1))%nat with (r * width k + S c - 1)%nat by lia. rewrite flat_rc by lia. reflexivity. }
  assert (Hb2 : sumn (cells k) (fun j => below 2 (fun m => flat k (Am2 k f) (m + 2)%nat) i j * x j) == Am2 k f r c * x (r * width k + (c - 2))%nat).
  { rewrite row_below by exact Hi. unfold i. destruct (Nat.leb_spec 2 c) as [H|H].
    - destruct (Nat.leb_spec 2 (r * width k + c)) as [H'|H']; [|lia]. replace (r * width k + c - 2 + 2)%nat with (r * width k + c)%nat by lia.
      replace (r * width k + (c - 2))%nat with (r * width k + c - 2)%nat by lia. rewrite flat_rc by lia. reflexivity.
    - assert (E : Am2 k f r c = 0) by (unfold Am2; destruct (Nat.eqb_spec c (nx k)); [lia|reflexivity]). rewrite E.
      destruct (Nat.leb_spec 2 (r * width k + c)) as [H'|H']; [|ring]. replace (r * width k + c - 2 + 2)%nat with (r * width k + c)%nat by lia.
      rewrite flat_rc, E by lia. ring. }
  assert (Ha1 : sumn (cells k) (fun j => above 1 (flat k (Ap1 k f)) i j * x j) == Ap1 k f r c * x (r * width k + S c)%nat).
  { rewrite row_above. unfold i. rewrite flat_rc by exact Hc. replace (r * width k + c + 1)%nat with (r * width k + S c)%nat by lia.
    destruct (Nat.ltb_spec (r * width k + S c) (cells k)) as [H|H]; [reflexivity|]. unfold Ap1. destruct (Nat.eqb_spec c (nx k)) as [E|E].
    rewrite orb_true_r. ring. pose proof (rc_lt k r (S c) Hr ltac:(lia)). lia. }
  assert (Ha2 : sumn (cells k) (fun j => above 2 (flat k (Ap2 k f)) i j * x j) == Ap2 k f r c * x (r * width k + (c + 2))%nat).
  { rewrite row_above. unfold i. rewrite flat_rc by exact Hc. replace (r * width k + c + 2)%nat with (r * width k + (c + 2))%nat by lia.
    destruct (Nat.ltb_spec (r * width k + (c + 2)) (cells k)) as [H|H]; [reflexivity|]. unfold Ap2. destruct (Nat.eqb_spec c 0) as [E|E].
    pose proof (rc_lt k r (c + 2) Hr ltac:(lia)). lia. ring. }
  unfold mulv, matrix. cbv zeta. destruct (Nat.eqb_spec (ny k) 0) as [Hz|Hz].
  - rewrite (sumn_ext _ _ (fun j => below 2 (fun m => flat k (Am2 k f) (m + 2)%nat) i j * x j
      + below 1 (fun m => flat k (Am1 k f) (m + 1)%nat) i j * x j + above 0 (flat k (A0 k f)) i j * x j
      + above 1 (flat k (Ap1 k f)) i j * x j + above 2 (flat k (Ap2 k f)) i j * x j)) by (intros; fold i; ring).
    rewrite !sumn_plus, HA0, Hb1, Ha1, Hb2, Ha2. ring.
  - assert (Hw : (0 < width k)%nat) by (unfold width; lia).
    assert (Hbw : sumn (cells k) (fun j => below (width k) (fun m => flat k (Amx k f) (width k + m)%nat) i j * x j) ==
      match r with O => 0 | S r' => Amx k f r c * x (r' * width k + c)%nat end).
    { rewrite row_below by exact Hi. unfold i. destruct r as [|r].
      - destruct (Nat.leb_spec (width k) (0 * width k + c)) as [H|H]; [unfold width in H; lia | reflexivity].
      - destruct (Nat.leb_spec (width k) (S r * width k + c)) as [H|H]; [|lia].
        replace (width k + (S r * width k + c - width k))%nat with (S r * width k + c)%nat by lia.
        replace (S r * width k + c - width k)%nat with (r * width k + c)%nat by lia. rewrite !flat_rc by exact Hc. reflexivity. }
    assert (Haw : sumn (cells k) (fun j => above (width k) (fun m => flat k (Apx k f) (width k + m)%nat) i j * x j) ==
      if Nat.eqb r (ny k) then 0 else Apx k f (S r) c * x (S r * width k + c)%nat).
    { rewrite row_above. unfold i. replace (r * width k + c + width k)%nat with (S r * width k + c)%nat by lia.
      replace (width k + (r * width k + c))%nat with (S r * width k + c)%nat by lia. rewrite !flat_rc by exact Hc.
      destruct (Nat.eqb_spec r (ny k)) as [->|H].
      - destruct (Nat.ltb_spec (S (ny k) * width k + c) (cells k)) as [H'|H']; [unfold cells in H'; lia | reflexivity].
      - destruct (Nat.ltb_spec (S r * width k + c) (cells k)) as [H'|H']; [reflexivity|]. pose proof (rc_lt k (S r) c ltac:(lia) Hc). lia. }
    assert (Hbj : sumn (cells k) (fun j => below (width k * ny k) (flat k (Apx k f)) i j * x j) ==
      if Nat.eqb r (ny k) then Apx k f 0%nat c * x (0 * width k + c)%nat else 0).
    { rewrite row_below by exact Hi. unfold i. destruct (Nat.eqb_spec r (ny k)) as [->|H].
      - destruct (Nat.leb_spec (width k * ny k) (ny k * width k + c)) as [H'|H']; [|lia].
        replace (ny k * width k + c - width k * ny k)%nat with (0 * width k + c)%nat by lia. rewrite !flat_rc by exact Hc. reflexivity.
      - destruct (Nat.leb_spec (width k * ny k) (r * width k + c)) as [H'|H']; [|reflexivity].
        assert (S r * width k <= ny k * width k)%nat by (apply Nat.mul_le_mono_r; lia). unfold width in *. lia. }
    assert (Haj : sumn (cells k) (fun j => above (width k * ny k) (flat k (Amx k f)) i j * x j) ==
      match r with O => Amx k f r c * x (ny k * width k + c)%nat | S _ => 0 end).
    { rewrite row_above. unfold i. destruct r as [|r].
      - replace (0 * width k + c + width k * ny k)%nat with (ny k * width k + c)%nat by lia. rewrite !flat_rc by exact Hc.
        destruct (Nat.ltb_spec (ny k * width k + c) (cells k)) as [H'|H']; [reflexivity|]. pose proof (rc_lt k (ny k) c ltac:(lia) Hc). lia.
      - destruct (Nat.ltb_spec (S r * width k + c + width k * ny k) (cells k)) as [H'|H']; [unfold cells in H'; lia | reflexivity]. }
    rewrite (sumn_ext _ _ (fun j => below (width k * ny k) (flat k (Apx k f)) i j * x j
      + below (width k) (fun m => flat k (Amx k f) (width k + m)%nat) i j * x j
      + below 2 (fun m => flat k (Am2 k f) (m + 2)%nat) i j * x j
      + below 1 (fun m => flat k (Am1 k f) (m + 1)%nat) i j * x j + above 0 (flat k (A0 k f)) i j * x j
      + above 1 (flat k (Ap1 k f)) i j * x j + above 2 (flat k (Ap2 k f)) i j * x j
      + above (width k) (fun m => flat k (Apx k f) (width k + m)%nat) i j * x j
      + above (width k * ny k) (flat k (Amx k f)) i j * x j)) by (intros; fold i; ring).
    rewrite !sumn_plus, HA0, Hb1, Ha1, Hb2, Ha2, Hbw, Haw, Hbj, Haj. unfold next_row, prev_row. destruct (Nat.eqb_spec r (ny k)), r; try ring; lia.
Qed.
