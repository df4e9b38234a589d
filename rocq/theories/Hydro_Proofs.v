(** Lemmas about water levels and groundwater. *)
From Coq Require Import QArith ZArith Lia Lqa List Bool Arith Setoid.
From Verif Require Import Base Num Utils_Model Utils_Spec Utils_Proofs Hydro_Model Hydro_Spec.
Import ListNotations.
Open Scope Q_scope.

(** * Water levels and waves *)
Lemma qmul_nn a b : 0 <= a -> 0 <= b -> 0 <= a * b.
Proof. intros. apply Qmult_le_0_compat; assumption. Qed.
Lemma series_nonneg s t : Utils_Spec.series (fst s :: snd s) -> nonneg_series s -> 0 <= at_time t s.
Proof.
  intros Hs (H0 & H). unfold at_time.
  set (hi := qmaxl (snd (fst s)) (map snd (snd s))).
  apply (circular_range (fst s) (snd s) Hs t 0 hi). intros x Hx. cbn [map] in Hx. destruct (qmaxl_ge (snd (fst s)) (map snd (snd s))) as (G1 & G2). destruct Hx as [<- | Hx].
  - split; [exact H0 | exact G1].
  - split; [|apply G2, Hx]. apply in_map_iff in Hx. destruct Hx as (p & <- & Hp). apply H, Hp.
Qed.
Lemma interp_cells h t row c' : In c' (interpolate h t row) -> exists c, In c row /\ zb c' = zb c /\ wave_mask c' = wave_mask c /\ tide_mask c' = tide_mask c /\ runup_mask c' = runup_mask c /\
  SWL c' = still_level h t c /\ Hs c' = wave_height h t (SWL c') c /\ zs c' = (if Qltb (SWL c') (zb c) then zb c else SWL c') /\
  (process_runup h = false -> TWL c' = TWL c /\ DSWL c' = DSWL c) /\
  (process_runup h = true -> exists first, let '(e, _, r) := stockdon h (Hs first) (Tp first) in In first (map (tide_and_waves h t) row) /\
     TWL c' = SWL c' + mask_value (runup_mask c) r /\ DSWL c' = SWL c' + mask_value (runup_mask c) e) /\
  Hsmix c' = (match process_wave h, wave_file h with true, Some (s, _) => mask_value (wave_mask c) (qmin (qmax 0 (TWL c' - zb c') * gamma h) (at_time t s)) | _, _ => Hsmix c end).
Proof.
  unfold interpolate. intros H. apply in_map_iff in H. destruct H as (c2 & <- & H). destruct (process_runup h) eqn:Er.
  - destruct (map (tide_and_waves h t) row) as [|first rest] eqn:E1; [destruct H|]. rewrite <- E1 in H. apply in_map_iff in H. destruct H as (c1 & <- & H).
    apply in_map_iff in H. destruct H as (c & <- & H). exists c. unfold run_up. destruct (stockdon h (Hs first) (Tp first)) as [[e sg] r] eqn:Es. cbn. split. exact H.
    do 7 (split; [reflexivity|]). split. discriminate. split; [|reflexivity]. intros _. exists first. rewrite Es. repeat split. left. reflexivity.
  - apply in_map_iff in H. destruct H as (c & <- & H). exists c. cbn. split. exact H. do 7 (split; [reflexivity|]). split. intros _. split; reflexivity. split; [discriminate|reflexivity].
Qed.
Lemma interp_beds h t row : map zb (interpolate h t row) = map zb row.
Proof.
  unfold interpolate. rewrite map_map. cbn [zb finish]. destruct (process_runup h).
  - destruct row as [|c row]; [reflexivity|]. cbn [map]. rewrite map_map. unfold run_up. destruct (stockdon h _ _) as [[e sg] r]. cbn. f_equal. rewrite map_map. reflexivity.
  - rewrite map_map. reflexivity.
Qed.
Lemma unmasked_value m v : unmasked m -> mask_value m v == v.
Proof. intros (H1 & H2). unfold mask_value. rewrite H1, H2. ring. Qed.

Lemma level_at_bed h t row c : In c (interpolate h t row) -> zb c <= zs c /\ SWL c <= zs c /\ (zs c = zb c \/ zs c = SWL c).
Proof.
  intros H. apply interp_cells in H. destruct H as (c0 & _ & E1 & _ & _ & _ & _ & _ & E & _). rewrite E, E1. destruct (Qltb_spec (SWL c) (zb c0)); repeat split; try lra; auto.
Qed.
Lemma wave_limited h t row c : 0 <= gamma h -> In c (interpolate h t row) -> unmasked (wave_mask c) ->
  Hs c <= gamma h * depth c /\ (proper_waves h -> 0 <= Hs c /\ (zs c <= zb c -> Hs c == 0)).
Proof.
  intros Hg Hin Hm. pose proof (level_at_bed _ _ _ _ Hin) as (L1 & L2 & _). apply interp_cells in Hin. destruct Hin as (c0 & _ & E1 & E2 & _ & _ & _ & EH & EZ & _).
  assert (Ed : depth c == qmax 0 (SWL c - zb c)).
  { unfold depth. rewrite EZ, E1. unfold qmax. destruct (Qltb_spec (SWL c) (zb c0)), (Qle_bool_spec 0 (SWL c - zb c0)); lra. }
  assert (0 <= depth c) by (unfold depth; lra). assert (0 <= gamma h * depth c) by (apply qmul_nn; assumption).
  rewrite EH. unfold wave_height. rewrite E2 in Hm. destruct (process_wave h); [|split; [assumption | intros _; split; [lra | reflexivity]]].
  destruct (wave_file h) as [[s s']|] eqn:Ew; [|split; [assumption | intros _; split; [lra | reflexivity]]]. rewrite (unmasked_value _ _ Hm). rewrite <- E1.
  set (D := qmax 0 (SWL c - zb c)) in *. pose proof (qmin_l (D * gamma h) (at_time t s)) as Q1. pose proof (qmin_r (D * gamma h) (at_time t s)) as Q2.
  assert (Eg : D * gamma h == gamma h * depth c) by (rewrite Ed; ring). split. lra.
  unfold proper_waves. rewrite Ew. intros (Hs1 & Hs2). pose proof (series_nonneg s t Hs1 Hs2). split. apply qmin_glb; lra.
  intros Hd. assert (depth c == 0) by (unfold depth in *; lra). assert (gamma h * depth c == 0) by (rewrite H2; ring). apply Qle_antisym. lra. apply qmin_glb; lra.
Qed.
Lemma mixing_limited h t row c : 0 <= gamma h -> In c (interpolate h t row) -> unmasked (wave_mask c) -> process_wave h = true -> wave_file h <> None -> Hsmix c <= gamma h * qmax 0 (TWL c - zb c).
Proof.
  intros Hg Hin Hm Hw Hf. apply interp_cells in Hin. destruct Hin as (c0 & _ & E1 & E2 & _ & _ & _ & _ & _ & _ & _ & EM). rewrite EM, Hw. destruct (wave_file h) as [[s s']|]; [|contradiction].
  rewrite E2 in Hm. rewrite (unmasked_value _ _ Hm). eapply Qle_trans; [apply qmin_l|]. rewrite Qmult_comm. apply Qle_refl.
Qed.
(** * Slices *)
Lemma bound_neg n k : (0 < k)%nat -> bound_to n (- Z.of_nat k) = (n - k)%nat.
Proof. intros H. unfold bound_to. destruct (Z.ltb_spec (- Z.of_nat k) 0); [|lia]. lia. Qed.
Lemma bound_pos n k : (k <= n)%nat -> bound_to n (Z.of_nat k) = k.
Proof. intros H. unfold bound_to. destruct (Z.ltb_spec (Z.of_nat k) 0); [lia|]. lia. Qed.
Lemma slice_length a k l : (a <= length l)%nat -> (0 < k)%nat -> length (slice (Z.of_nat a) (- Z.of_nat k) l) = (length l - k - a)%nat.
Proof. intros Ha Hk. unfold slice. rewrite bound_neg, bound_pos by assumption. rewrite firstn_length, skipn_length. lia. Qed.
Lemma nth_skipn_Q a (l : list Q) i : nth i (skipn a l) 0 = nth (a + i) l 0.
Proof. revert l. induction a as [|a IH]; intros l. reflexivity. destruct l as [|x l]; cbn [skipn Nat.add nth]. destruct i; reflexivity. apply IH. Qed.
Lemma nth_firstn_Q m (l : list Q) i : (i < m)%nat -> nth i (firstn m l) 0 = nth i l 0.
Proof. revert l i. induction m as [|m IH]; intros l i H. lia. destruct l as [|x l]; [reflexivity|]. destruct i as [|i]; cbn [firstn nth]. reflexivity. apply IH. lia. Qed.
Lemma slice_nth a k l i : (a <= length l)%nat -> (0 < k)%nat -> (i < length l - k - a)%nat -> nth i (slice (Z.of_nat a) (- Z.of_nat k) l) 0 = nth (a + i) l 0.
Proof. intros Ha Hk Hi. unfold slice. rewrite bound_neg, bound_pos by assumption. rewrite nth_firstn_Q by lia. apply nth_skipn_Q. Qed.
Lemma zeros_length n : length (zeros n) = n. Proof. apply repeat_length. Qed.
Lemma zeros_nth n i : nth i (zeros n) 0 = 0.
Proof. unfold zeros. destruct (Nat.lt_ge_cases i n) as [H|H]. apply nth_repeat. apply nth_overflow. rewrite repeat_length. exact H. Qed.
Lemma put_slice_zeros n a k vs : (a <= n - k)%nat -> (0 < k)%nat -> length vs = (n - k - a)%nat -> exists l, put_slice (Z.of_nat a) (- Z.of_nat k) vs (zeros n) = Ok l /\ length l = n /\
  forall j, nth j l 0 = if Nat.leb a j && Nat.ltb j (n - k) then nth (j - a) vs 0 else 0.
Proof.
  intros Ha Hk Hv. unfold put_slice. rewrite slice_length, zeros_length by (rewrite ?zeros_length; lia). rewrite bound_pos by lia. rewrite Hv, Nat.eqb_refl. eexists. split; [reflexivity|].
  split. rewrite !app_length, firstn_length, skipn_length, zeros_length. lia.
  intros j. assert (L1 : length (firstn a (zeros n)) = a) by (rewrite firstn_length, zeros_length; lia).
  destruct (Nat.leb_spec a j), (Nat.ltb_spec j (n - k)); cbn [andb].
  - rewrite app_nth2, L1 by lia. rewrite app_nth1 by lia. reflexivity.
  - rewrite app_nth2, L1 by lia. rewrite app_nth2 by lia. rewrite nth_skipn_Q. apply zeros_nth.
  - rewrite app_nth1 by lia. rewrite nth_firstn_Q by lia. apply zeros_nth.
  - lia.
Qed.
Lemma both_ok f l m : length l = length m -> both f l m = Ok (map2 f l m).
Proof. intros H. unfold both. rewrite H, Nat.eqb_refl. reflexivity. Qed.
Lemma nth_both f l m i : length l = length m -> (i < length l)%nat -> nth i (map2 f l m) 0 = f (nth i l 0) (nth i m 0).
Proof. intros H Hi. apply nth_map2; assumption. Qed.

(** The rate of change in words of the neighbours. *)
Definition term (ds gw : list Q) (m : nat) : Q := nth m gw 0 * (nth (m + 1) gw 0 + nth (m - 1) gw 0) / nth m ds 0.
Definition rate (g : gwcfg) (ds gw : list Q) (j : nat) : Q :=
  K_gw g / ne_gw g * (D_gw g * ((nth (j + 1) gw 0 - 2 * nth j gw 0 + nth (j - 1) gw 0) / (nth j ds 0 * nth j ds 0)) + (term ds gw (j + 1) - term ds gw (j - 1)) / nth j ds 0).
Lemma Zs s k : (Z.of_nat s + Z.of_nat k)%Z = Z.of_nat (s + k). Proof. lia. Qed.
Lemma change_spec g s ds gw : (1 <= s)%nat -> (s + 3 < length gw)%nat -> length ds = length gw ->
  exists r, change g (Z.of_nat s) ds gw = Ok r /\ length r = length gw /\
    forall j, nth j r 0 = if Nat.leb (s + 1) j && Nat.ltb j (length gw - 3) then rate g ds gw j else 0.
Proof.
  intros H1 H2 H3. unfold change. remember (length gw) as n eqn:En. destruct (Nat.le_exists_sub (s + 4) n ltac:(lia)) as (e & Ee & _). destruct (Z.ltb_spec (Z.of_nat s) (Z.of_nat n - 3)) as [_|]; [|lia].
  change (-1)%Z with (- Z.of_nat 1)%Z. change (-2)%Z with (- Z.of_nat 2)%Z. change (-3)%Z with (- Z.of_nat 3)%Z. change (-4)%Z with (- Z.of_nat 4)%Z.
  change (Z.of_nat s + 1)%Z with (Z.of_nat s + Z.of_nat 1)%Z. change (Z.of_nat s + 2)%Z with (Z.of_nat s + Z.of_nat 2)%Z. rewrite !Zs.
  replace (Z.of_nat s - 1)%Z with (Z.of_nat (s - 1)) by lia.
  set (A := slice (Z.of_nat (s + 1)) (- Z.of_nat 1) gw). set (B := slice (Z.of_nat s) (- Z.of_nat 2) gw). set (C := slice (Z.of_nat (s - 1)) (- Z.of_nat 3) gw). set (D := slice (Z.of_nat s) (- Z.of_nat 2) ds).
  assert (LA : length A = (e + 2)%nat) by (unfold A; rewrite slice_length; rewrite <- ?En; lia).
  assert (LB : length B = (e + 2)%nat) by (unfold B; rewrite slice_length; rewrite <- ?En; lia).
  assert (LC : length C = (e + 2)%nat) by (unfold C; rewrite slice_length; rewrite <- ?En; lia).
  assert (LD : length D = (e + 2)%nat) by (unfold D; rewrite slice_length; rewrite ?H3; rewrite <- ?En; lia).
  assert (NA : forall i, (i < e + 2)%nat -> nth i A 0 = nth (s + 1 + i) gw 0) by (intros; unfold A; apply slice_nth; rewrite <- ?En; lia).
  assert (NB : forall i, (i < e + 2)%nat -> nth i B 0 = nth (s + i) gw 0) by (intros; unfold B; apply slice_nth; rewrite <- ?En; lia).
  assert (NC : forall i, (i < e + 2)%nat -> nth i C 0 = nth (s - 1 + i) gw 0) by (intros; unfold C; apply slice_nth; rewrite <- ?En; lia).
  assert (ND : forall i, (i < e + 2)%nat -> nth i D 0 = nth (s + i) ds 0) by (intros; unfold D; apply slice_nth; rewrite ?H3; rewrite <- ?En; lia).
  clearbody A B C D.
  assert (M : forall (f : Q -> Q -> Q) l m len, length l = len -> length m = len -> length (map2 f l m) = len) by (intros f l m len E1 E2; rewrite map2_length; congruence).
  rewrite both_ok by congruence. cbn [bind]. set (a1 := map2 (fun u v => u - 2 * v) A B).
  assert (La1 : length a1 = (e + 2)%nat) by (apply M; assumption).
  rewrite both_ok by congruence. cbn [bind]. set (a2 := map2 Qplus a1 C). assert (La2 : length a2 = (e + 2)%nat) by (apply M; assumption).
  rewrite both_ok by congruence. cbn [bind]. set (a3 := map2 (fun u d => u / (d * d)) a2 D). assert (La3 : length a3 = (e + 2)%nat) by (apply M; assumption).
  destruct (put_slice_zeros n s 2 a3 ltac:(lia) ltac:(lia) ltac:(lia)) as (a & Ea & La & Na). rewrite Ea. cbn [bind].
  rewrite both_ok by congruence. cbn [bind]. set (b1 := map2 Qplus A C). assert (Lb1 : length b1 = (e + 2)%nat) by (apply M; assumption).
  rewrite both_ok by congruence. cbn [bind]. set (b2 := map2 Qmult B b1). assert (Lb2 : length b2 = (e + 2)%nat) by (apply M; assumption).
  rewrite both_ok by congruence. cbn [bind]. set (b3 := map2 Qdiv b2 D). assert (Lb3 : length b3 = (e + 2)%nat) by (apply M; assumption).
  destruct (put_slice_zeros n s 2 b3 ltac:(lia) ltac:(lia) ltac:(lia)) as (b & Eb & Lb & Nb). rewrite Eb. cbn [bind].
  set (X := slice (Z.of_nat (s + 2)) (- Z.of_nat 2) b). set (Y := slice (Z.of_nat s) (- Z.of_nat 4) b). set (W := slice (Z.of_nat (s + 1)) (- Z.of_nat 3) ds).
  assert (LX : length X = e) by (unfold X; rewrite slice_length; rewrite ?Lb; lia).
  assert (LY : length Y = e) by (unfold Y; rewrite slice_length; rewrite ?Lb; lia).
  assert (LW : length W = e) by (unfold W; rewrite slice_length; rewrite ?H3; rewrite <- ?En; lia).
  assert (NX : forall i, (i < e)%nat -> nth i X 0 = nth (s + 2 + i) b 0) by (intros; unfold X; apply slice_nth; rewrite ?Lb; lia).
  assert (NY : forall i, (i < e)%nat -> nth i Y 0 = nth (s + i) b 0) by (intros; unfold Y; apply slice_nth; rewrite ?Lb; lia).
  assert (NW : forall i, (i < e)%nat -> nth i W 0 = nth (s + 1 + i) ds 0) by (intros; unfold W; apply slice_nth; rewrite ?H3; rewrite <- ?En; lia).
  clearbody X Y W. rewrite both_ok by congruence. cbn [bind]. set (c1 := map2 Qminus X Y). assert (Lc1 : length c1 = e) by (apply M; assumption).
  rewrite both_ok by congruence. cbn [bind]. set (c2 := map2 Qdiv c1 W). assert (Lc2 : length c2 = e) by (apply M; assumption).
  destruct (put_slice_zeros n (s + 1) 3 c2 ltac:(lia) ltac:(lia) ltac:(lia)) as (c & Ec & Lc & Nc). rewrite Ec. cbn [bind].
  set (U := slice (Z.of_nat (s + 1)) (- Z.of_nat 3) a). set (V := slice (Z.of_nat (s + 1)) (- Z.of_nat 3) c).
  assert (LU : length U = e) by (unfold U; rewrite slice_length; rewrite ?La; lia).
  assert (LV : length V = e) by (unfold V; rewrite slice_length; rewrite ?Lc; lia).
  assert (NU : forall i, (i < e)%nat -> nth i U 0 = nth (s + 1 + i) a 0) by (intros; unfold U; apply slice_nth; rewrite ?La; lia).
  assert (NV : forall i, (i < e)%nat -> nth i V 0 = nth (s + 1 + i) c 0) by (intros; unfold V; apply slice_nth; rewrite ?Lc; lia).
  clearbody U V. rewrite both_ok by congruence. cbn [bind]. set (d := map2 (fun x y => K_gw g / ne_gw g * (D_gw g * x + y)) U V). assert (Ld : length d = e) by (apply M; assumption).
  destruct (put_slice_zeros n (s + 1) 3 d ltac:(lia) ltac:(lia) ltac:(lia)) as (r & Er & Lr & Nr). exists r. split. exact Er. split. exact Lr.
  intros j. rewrite Nr. destruct (Nat.leb_spec (s + 1) j), (Nat.ltb_spec j (n - 3)); cbn [andb]; try reflexivity.
  assert (TB : forall m, (s <= m)%nat -> (m < n - 2)%nat -> nth m b 0 = term ds gw m).
  { intros m Hm1 Hm2. rewrite Nb. destruct (Nat.leb_spec s m); [|lia]. destruct (Nat.ltb_spec m (n - 2)); [|lia]. cbn [andb].
    unfold b3. rewrite nth_both by (congruence || lia). unfold b2. rewrite nth_both by (congruence || lia). unfold b1. rewrite nth_both by (congruence || lia).
    rewrite NA, NB, NC, ND by lia. replace (s + (m - s))%nat with m by lia. replace (s + 1 + (m - s))%nat with (m + 1)%nat by lia. replace (s - 1 + (m - s))%nat with (m - 1)%nat by lia. reflexivity. }
  unfold d. rewrite nth_both by (congruence || lia). rewrite NU, NV by lia. replace (s + 1 + (j - (s + 1)))%nat with j by lia. rewrite Na, Nc.
  destruct (Nat.leb_spec s j); [|lia]. destruct (Nat.ltb_spec j (n - 2)); [|lia]. destruct (Nat.leb_spec (s + 1) j); [|lia]. destruct (Nat.ltb_spec j (n - 3)); [|lia]. cbn [andb].
  unfold a3. rewrite nth_both by (congruence || lia). unfold a2. rewrite nth_both by (congruence || lia). unfold a1. rewrite nth_both by (congruence || lia).
  rewrite NA, NB, NC, ND by lia. unfold c2. rewrite nth_both by (congruence || lia). unfold c1. rewrite nth_both by (congruence || lia). rewrite NX, NY, NW by lia.
  replace (s + (j - s))%nat with j by lia. replace (s + 1 + (j - s))%nat with (j + 1)%nat by lia. replace (s - 1 + (j - s))%nat with (j - 1)%nat by lia.
  replace (s + 2 + (j - (s + 1)))%nat with (j + 1)%nat by lia. replace (s + (j - (s + 1)))%nat with (j - 1)%nat by lia. replace (s + 1 + (j - (s + 1)))%nat with j by lia.
  rewrite !TB by lia. reflexivity.
Qed.

(** * Lengths *)
Lemma put_nat_length i v l : length (put_nat i v l) = length l.
Proof. revert i. induction l as [|x l IH]; intros [|i]; cbn; congruence. Qed.
Lemma put_length z v l : length (put z v l) = length l. Proof. apply put_nat_length. Qed.
Lemma nth_put_nat i v l j : nth j (put_nat i v l) 0 = if Nat.eqb j i && Nat.ltb i (length l) then v else nth j l 0.
Proof.
  revert i j. induction l as [|x l IH]; intros [|i] [|j]; cbn [put_nat nth length]; try reflexivity.
  - rewrite andb_false_r. reflexivity.
  - cbn [Nat.eqb]. rewrite IH. destruct (Nat.eqb_spec j i); cbn [andb]; [|reflexivity]. subst j. destruct (Nat.ltb_spec i (length l)), (Nat.ltb_spec (S i) (S (length l))); try reflexivity; lia.
Qed.
Lemma edges_length g s o d w : length (edges g s o d w) = length w.
Proof. unfold edges. rewrite !put_length. reflexivity. Qed.
Lemma bound_le n z : (bound_to n z <= n)%nat.
Proof. unfold bound_to. destruct (Z.ltb_spec z 0); lia. Qed.
Lemma slice_len a b l : length (slice a b l) = Nat.min (bound_to (length l) b - bound_to (length l) a) (length l - bound_to (length l) a).
Proof. unfold slice. rewrite firstn_length, skipn_length. reflexivity. Qed.
Lemma put_slice_length a b vs l r : put_slice a b vs l = Ok r -> length r = length l.
Proof.
  unfold put_slice. destruct (Nat.eqb_spec (length vs) (length (slice a b l))) as [E|]; [|discriminate]. intros H. apply Ok_inj in H. subst r.
  rewrite !app_length, firstn_length, skipn_length, E, slice_len. pose proof (bound_le (length l) a). lia.
Qed.
Lemma put_slice_ok a b vs l : length vs = length (slice a b l) -> exists r, put_slice a b vs l = Ok r /\ length r = length l.
Proof. intros H. destruct (put_slice a b vs l) eqn:E. eauto using put_slice_length. unfold put_slice in E. rewrite H, Nat.eqb_refl in E. discriminate. Qed.
Lemma slice_len_eq a b (l m : list Q) : length l = length m -> length (slice a b l) = length (slice a b m).
Proof. intros H. rewrite !slice_len, H. reflexivity. Qed.
Lemma seep_ok g s z w : length z = length w -> exists r, seep g s z w = Ok r /\ length r = length w.
Proof.
  intros H. unfold seep. destruct (seepage g); [|eauto]. set (k := (argmax _ - 1)%Z). destruct (Z.ltb s k); [|eauto]. apply put_slice_ok, slice_len_eq, H.
Qed.
Lemma overheight_ok s r x : exists f, overheight s r x = Ok f /\ length f = length x.
Proof.
  unfold overheight. destruct (put_slice_ok s (peak s r) (map (fun v => (v - get s x) / ((2 # 3) * (get r x - get s x))) (slice s (peak s r) x)) (zeros (length x))) as (f1 & E1 & L1).
  rewrite map_length. apply slice_len_eq. rewrite zeros_length. reflexivity. rewrite E1. cbn [bind]. rewrite zeros_length in L1.
  destruct (put_slice_ok (peak s r + 1) r (map (fun v => 3 - (v - get s x) / ((1 # 3) * (get r x - get s x))) (slice (peak s r + 1) r x)) f1) as (f2 & E2 & L2).
  rewrite map_length. apply slice_len_eq. congruence. rewrite E2. cbn [bind]. eexists. split. reflexivity. rewrite put_length. congruence.
Qed.
Lemma change_ok g s ds w : (1 <= s)%nat -> length ds = length w -> exists r, change g (Z.of_nat s) ds w = Ok r /\ length r = length w.
Proof.
  intros H1 H2. destruct (Nat.lt_ge_cases (s + 3) (length w)) as [H|H].
  - destruct (change_spec g s ds w H1 H H2) as (r & E & L & _). eauto.
  - unfold change. destruct (Z.ltb_spec (Z.of_nat s) (Z.of_nat (length w) - 3)); [lia|]. eexists. split. reflexivity. apply zeros_length.
Qed.
Lemma change_length g s ds w r : change g s ds w = Ok r -> length r = length w.
Proof.
  unfold change. destruct (Z.ltb _ _); [|intros H; apply Ok_inj in H; subst; apply zeros_length].
  repeat match goal with |- bind ?m _ = _ -> _ => destruct m; cbn [bind]; [|discriminate] end. intros H. apply put_slice_length in H. rewrite zeros_length in H. exact H.
Qed.
Lemma boussinesq_length g s o d ds z w m r : length z = length w -> boussinesq g s o d ds z w = Ok (m, r) -> length m = length w /\ length r = length w.
Proof.
  intros Hz. unfold boussinesq. destruct (seep_ok g s z (edges g s o d w)) as (w' & E & L). rewrite edges_length. exact Hz. rewrite E. cbn [bind]. rewrite edges_length in L.
  destruct (change g s ds w') as [c|] eqn:Ec; cbn [bind]; [|discriminate]. intros H. apply Ok_inj in H. injection H as <- <-. apply change_length in Ec. split; congruence.
Qed.
Lemma boussinesq_ok g s o d ds z w : (1 <= s)%nat -> length z = length w -> length ds = length w -> exists m r, boussinesq g (Z.of_nat s) o d ds z w = Ok (m, r) /\ length m = length w /\ length r = length w.
Proof.
  intros H1 Hz Hd. unfold boussinesq. destruct (seep_ok g (Z.of_nat s) z (edges g (Z.of_nat s) o d w)) as (w' & E & L). rewrite edges_length. exact Hz. rewrite E. cbn [bind]. rewrite edges_length in L.
  destruct (change_ok g s ds w' H1 ltac:(congruence)) as (c & Ec & Lc). rewrite Ec. cbn [bind]. eexists _, _. split. reflexivity. split; congruence.
Qed.
Lemma vplus_length k l m : length l = length m -> length (vplus k l m) = length l.
Proof. apply map2_length. Qed.

(** * One sub-step *)
Lemma substep_ok g dtgw o row lv w s n : row_shaped n row -> levels_shaped n lv -> length w = n -> (1 <= s)%nat -> shore (gzb row) (dswl lv) = Z.of_nat s ->
  exists m r, substep g dtgw o row lv w = Ok (m, r).
Proof.
  intros (R1 & R2 & R3 & R4) (L1 & L2) Hw Hs Esh. unfold substep. rewrite Esh.
  destruct (boussinesq_ok g s o (dswl lv) (gds row) (gzb row) w Hs ltac:(congruence) ltac:(congruence)) as (m1 & r1 & E1 & M1 & K1). rewrite E1. cbn [bind fst snd].
  assert (V1 : length (vplus (dtgw / 2) m1 r1) = n) by (rewrite vplus_length; congruence).
  destruct (boussinesq_ok g s o (dswl lv) (gds row) (gzb row) _ Hs ltac:(rewrite V1; congruence) ltac:(rewrite V1; congruence)) as (m2 & r2 & E2 & M2 & K2). rewrite E2. cbn [bind fst snd].
  assert (V2 : length (vplus (dtgw / 2) m1 r2) = n) by (rewrite vplus_length; congruence).
  destruct (boussinesq_ok g s o (dswl lv) (gds row) (gzb row) _ Hs ltac:(rewrite V2; congruence) ltac:(rewrite V2; congruence)) as (m3 & r3 & E3 & M3 & K3). rewrite E3. cbn [bind fst snd].
  assert (V3 : length (vplus dtgw m1 r3) = n) by (rewrite vplus_length; congruence).
  destruct (boussinesq_ok g s o (dswl lv) (gds row) (gzb row) _ Hs ltac:(rewrite V3; congruence) ltac:(rewrite V3; congruence)) as (m4 & r4 & E4 & M4 & K4). rewrite E4. cbn [bind fst snd].
  destruct (waves g); [|cbn [bind]; eexists _, _; reflexivity]. destruct (overheight_ok (Z.of_nat s) (shore (gzb row) (twl lv)) (gx row)) as (f & Ef & _). rewrite Ef. cbn [bind]. eexists _, _. reflexivity.
Qed.
Lemma nth_error_map2 {A B C} (f : A -> B -> C) l m i c : nth_error (map2 f l m) i = Some c -> exists a b, nth_error l i = Some a /\ nth_error m i = Some b /\ c = f a b.
Proof.
  revert m i. induction l as [|x l IH]; intros [|y m] [|i] H; try discriminate H. injection H as <-. exists x, y. auto. cbn [nth_error]. apply IH, H.
Qed.
Lemma nth_error_combine_some {A B} (l : list A) (m : list B) i c : nth_error (combine l m) i = Some c -> nth_error l i = Some (fst c) /\ nth_error m i = Some (snd c).
Proof.
  revert m i. induction l as [|x l IH]; intros [|y m] [|i] H; try discriminate H. injection H as <-. auto. cbn [nth_error]. apply IH, H.
Qed.
(** What every successful sub-step leaves. *)
Lemma substep_shape g dtgw o row lv w m r n : row_shaped n row -> levels_shaped n lv -> length w = n -> substep g dtgw o row lv w = Ok (m, r) -> length m = n /\ length r = n.
Proof.
  intros (R1 & R2 & R3 & R4) (L1 & L2) Hw. unfold substep. set (s := shore (gzb row) (dswl lv)).
  destruct (boussinesq g s o (dswl lv) (gds row) (gzb row) w) as [[m1 r1]|] eqn:E1; cbn [bind fst snd]; [|discriminate]. apply boussinesq_length in E1; [|congruence]. destruct E1 as (M1 & K1).
  assert (V1 : length (vplus (dtgw / 2) m1 r1) = n) by (rewrite vplus_length; congruence).
  destruct (boussinesq g s o (dswl lv) (gds row) (gzb row) (vplus (dtgw / 2) m1 r1)) as [[m2 r2]|] eqn:E2; cbn [bind fst snd]; [|discriminate]. apply boussinesq_length in E2; [|rewrite V1; congruence]. destruct E2 as (M2 & K2).
  assert (V2 : length (vplus (dtgw / 2) m1 r2) = n) by (rewrite vplus_length; congruence).
  destruct (boussinesq g s o (dswl lv) (gds row) (gzb row) (vplus (dtgw / 2) m1 r2)) as [[m3 r3]|] eqn:E3; cbn [bind fst snd]; [|discriminate]. apply boussinesq_length in E3; [|rewrite V2; congruence]. destruct E3 as (M3 & K3).
  assert (V3 : length (vplus dtgw m1 r3) = n) by (rewrite vplus_length; congruence).
  destruct (boussinesq g s o (dswl lv) (gds row) (gzb row) (vplus dtgw m1 r3)) as [[m4 r4]|] eqn:E4; cbn [bind fst snd]; [|discriminate]. apply boussinesq_length in E4; [|rewrite V3; congruence]. destruct E4 as (M4 & K4).
  set (w2 := vplus (dtgw / 6) m1 (vplus 1 (vplus 2 (vplus 2 r1 r2) r3) r4)).
  assert (W2 : length w2 = n). { assert (A1 : length (vplus 2 r1 r2) = n) by (rewrite vplus_length; congruence). assert (A2 : length (vplus 2 (vplus 2 r1 r2) r3) = n) by (rewrite vplus_length; congruence).
    assert (A3 : length (vplus 1 (vplus 2 (vplus 2 r1 r2) r3) r4) = n) by (rewrite vplus_length; congruence). unfold w2. rewrite vplus_length; congruence. }
  assert (HH : forall w3, length w3 = n -> length (map2 (fun w zl => if Qltb (fst zl) (snd zl) then snd zl else w) (map2 qmin (map2 mask_value (gmask row) w3) (gzb row)) (combine (gzb row) (dswl lv))) = n).
  { intros w3 H3. assert (length (map2 mask_value (gmask row) w3) = n) by (rewrite map2_length; congruence). assert (length (map2 qmin (map2 mask_value (gmask row) w3) (gzb row)) = n) by (rewrite map2_length; congruence).
    rewrite map2_length. assumption. rewrite combine_length. lia. }
  destruct (waves g).
  - destruct (overheight_ok s (shore (gzb row) (twl lv)) (gx row)) as (f & Ef & Lf). rewrite Ef. cbn [bind]. intros H. apply Ok_inj in H. injection H as <- <-. split. congruence. apply HH. rewrite vplus_length; congruence.
  - cbn [bind]. intros H. apply Ok_inj in H. injection H as <- <-. split. congruence. apply HH, W2.
Qed.
Lemma substep_bound g dtgw o row lv w m r : substep g dtgw o row lv w = Ok (m, r) ->
  forall j x, nth_error r j = Some x -> exists z s, nth_error (gzb row) j = Some z /\ nth_error (dswl lv) j = Some s /\ (x <= z \/ (z < s /\ x == s)) /\ (z < s -> x == s).
Proof.
  unfold substep. repeat match goal with |- bind ?m _ = _ -> _ => destruct m; cbn [bind]; [|discriminate] end. intros H j x Hj. apply Ok_inj in H. injection H as _ <-.
  apply nth_error_map2 in Hj. destruct Hj as (y & zl & Hy & Hzl & Ex). apply nth_error_combine_some in Hzl. destruct Hzl as (Hz & Hs). apply nth_error_map2 in Hy. destruct Hy as (u & z & _ & Hz' & ->).
  exists (fst zl), (snd zl). rewrite Hz in Hz'. injection Hz' as <-. split. exact Hz. split. exact Hs. rewrite Ex. destruct (Qltb_spec (fst zl) (snd zl)).
  - split. right. split. assumption. reflexivity. reflexivity.
  - split. left. apply qmin_r. intros; exfalso; lra.
Qed.

(** * All rows *)
Lemma over_rows_spec f os rows lvs gws ms rs : over_rows f os rows lvs gws = Ok (ms, rs) ->
  length rs = Nat.min (Nat.min (length os) (length rows)) (Nat.min (length lvs) (length gws)) /\ length ms = length rs /\
  forall i m r, nth_error ms i = Some m -> nth_error rs i = Some r -> exists o row lv w, nth_error os i = Some o /\ nth_error rows i = Some row /\ nth_error lvs i = Some lv /\ nth_error gws i = Some w /\ f o row lv w = Ok (m, r).
Proof.
  revert rows lvs gws ms rs. induction os as [|o os IH]; intros rows lvs gws ms rs H.
  { cbn in H. apply Ok_inj in H. injection H as <- <-. split. reflexivity. split. reflexivity. intros [|i] m r E; discriminate E. }
  destruct rows as [|row rows]; [|destruct lvs as [|lv lvs]; [|destruct gws as [|w gws]]];
    try (cbn in H; apply Ok_inj in H; injection H as <- <-; split; [cbn; lia|]; split; [reflexivity|]; intros [|i] m r E; discriminate E).
  cbn [over_rows] in H. destruct (f o row lv w) as [[m r]|] eqn:Ef; cbn [bind] in H; [|discriminate]. destruct (over_rows f os rows lvs gws) as [[ms' rs']|] eqn:Er; cbn [bind fst snd] in H; [|discriminate].
  apply Ok_inj in H. injection H as <- <-. apply IH in Er. destruct Er as (L1 & L2 & H). split. cbn [length]. rewrite L1. lia. split. cbn; congruence.
  intros [|i] m' r' E1 E2. injection E1 as <-. injection E2 as <-. exists o, row, lv, w. auto. cbn [nth_error] in *. apply H; assumption.
Qed.
Lemma previous_length l : l <> [] -> length (previous l) = length l.
Proof. intros H. unfold previous. cbn [length]. destruct (exists_last H) as (l' & x & ->). rewrite removelast_last, app_length. cbn. lia. Qed.
Lemma previous_len_min l k : Nat.min (length (previous l)) (Nat.min (length l) k) = Nat.min (length l) k.
Proof. destruct l as [|x l]. reflexivity. rewrite previous_length by discriminate. lia. Qed.
Lemma Forall_nth_error {A} (P : A -> Prop) l i x : Forall P l -> nth_error l i = Some x -> P x.
Proof. intros H E. rewrite Forall_forall in H. apply H. eapply nth_error_In, E. Qed.
Lemma nth_error_lt {A} (l : list A) i : (i < length l)%nat -> exists x, nth_error l i = Some x.
Proof. intros H. destruct (nth_error l i) eqn:E; [eauto|]. apply nth_error_None in E. lia. Qed.
Lemma Forall_by_nth {A} (P : A -> Prop) l : (forall i x, nth_error l i = Some x -> P x) -> Forall P l.
Proof. intros H. apply Forall_forall. intros x Hx. apply In_nth_error in Hx. destruct Hx as (i & E). eapply H, E. Qed.
Lemma substeps1_shape g dtgw rows lvs gws ms rs n k : rows_shaped n rows -> length rows = k -> length lvs = k -> Forall (levels_shaped n) lvs -> field_shaped n k gws ->
  substeps1 g dtgw rows lvs gws = Ok (ms, rs) -> field_shaped n k ms /\ field_shaped n k rs.
Proof.
  intros Hr Hk Hl1 Hl2 (Hg1 & Hg2) H. unfold substeps1 in H. apply over_rows_spec in H. destruct H as (L1 & L2 & H).
  assert (length rs = k).
  { rewrite L1. assert (Lm : length (map2 (fun r l => shore (gzb r) (dswl l)) rows lvs) = k) by (rewrite map2_length; congruence). destruct k as [|k'].
    destruct rows; [|discriminate]. cbn. lia. rewrite previous_length. lia. intros E0. rewrite E0 in Lm. discriminate. }
  assert (HF : forall i m r, nth_error ms i = Some m -> nth_error rs i = Some r -> length m = n /\ length r = n).
  { intros i m r E1 E2. destruct (H i m r E1 E2) as (o & row & lv & w & _ & Er & El & Ew & Ef). eapply substep_shape; [| | |exact Ef]. eapply Forall_nth_error; eassumption. eapply Forall_nth_error; eassumption.
    exact (Forall_nth_error _ _ _ _ Hg2 Ew). }
  split; (split; [congruence|]); apply Forall_by_nth; intros i x Ex.
  - destruct (nth_error_lt rs i) as (r & Er). rewrite <- L2. apply nth_error_Some. congruence. apply (HF i x r Ex Er).
  - destruct (nth_error_lt ms i) as (m & Em). rewrite L2. apply nth_error_Some. congruence. apply (HF i m x Em Ex).
Qed.
Definition bounded_by (rows : list gwrow) (lvs : list levels) (gws : list (list Q)) : Prop :=
  forall i j w x, nth_error gws i = Some w -> nth_error w j = Some x -> exists row lv z s, nth_error rows i = Some row /\ nth_error lvs i = Some lv /\ nth_error (gzb row) j = Some z /\ nth_error (dswl lv) j = Some s /\
    x <= qmax z s /\ (z < s -> x == s).
Lemma substeps1_bound g dtgw rows lvs gws ms rs : substeps1 g dtgw rows lvs gws = Ok (ms, rs) -> bounded_by rows lvs rs.
Proof.
  unfold substeps1. intros H. apply over_rows_spec in H. destruct H as (L1 & L2 & H). intros i j w x Ew Ex.
  destruct (nth_error_lt ms i) as (m & Em). rewrite L2. apply nth_error_Some. congruence.
  destruct (H i m w Em Ew) as (o & row & lv & w0 & _ & Er & El & _ & Ef). destruct (substep_bound _ _ _ _ _ _ _ _ Ef j x Ex) as (z & s & Ez & Es & Hb & Hb'). exists row, lv, z, s. repeat split; try assumption.
  destruct Hb as [Hb | (_ & Hb)]. eapply Qle_trans. exact Hb. apply qmax_l. rewrite Hb. apply qmax_r.
Qed.
Lemma substeps_shape g dtgw rows lv n k m : rows_shaped n rows -> length rows = k -> all_levels_shaped n k lv -> forall i gws r, field_shaped n k gws -> substeps g dtgw rows lv i m gws = Ok r -> field_shaped n k r.
Proof.
  intros Hr Hk Hl. induction m as [|m IH]; intros i gws r Hg H. apply Ok_inj in H. subst. exact Hg. cbn [substeps] in H. destruct (substeps1 g dtgw rows (lv i) gws) as [[ms rs]|] eqn:E; cbn [bind snd] in H; [|discriminate].
  eapply IH; [|exact H]. destruct (Hl i) as (La & Lb). eapply substeps1_shape; eassumption.
Qed.
Lemma substeps_bound g dtgw rows lv m : forall i gws r, substeps g dtgw rows lv i (S m) gws = Ok r -> bounded_by rows (lv (i + m)%nat) r.
Proof.
  induction m as [|m IH]; intros i gws r H; cbn [substeps] in H; destruct (substeps1 g dtgw rows (lv i) gws) as [[ms rs]|] eqn:E; cbn [bind snd] in H; try discriminate.
  - apply Ok_inj in H. subst. rewrite Nat.add_0_r. eapply substeps1_bound, E.
  - apply IH in H. rewrite Nat.add_succ_r. exact H.
Qed.
Lemma groundwater_as_steps g dt tfac rows lv gw prev n wet gw' prev' : gw_steps dt tfac = Ok n -> groundwater g dt tfac rows lv gw prev = Ok (wet, gw', prev') ->
  substeps g (inject_Z (gw_timestep dt tfac)) rows lv 0 n gw = Ok gw' /\ wet = wetting gw prev /\ (n = O -> prev' = gw) /\
  forall m, n = S m -> exists r, substeps1 g (inject_Z (gw_timestep dt tfac)) rows (lv O) gw = Ok r /\ prev' = fst r.
Proof.
  intros Hn. unfold groundwater. rewrite Hn. cbn [bind]. destruct n as [|m].
  - intros H. apply Ok_inj in H. injection H as <- <- <-. repeat split. discriminate.
  - cbn [substeps]. destruct (substeps1 g (inject_Z (gw_timestep dt tfac)) rows (lv O) gw) as [r|]; cbn [bind]; [|discriminate]. destruct (substeps g (inject_Z (gw_timestep dt tfac)) rows lv 1 m (snd r)); cbn [bind]; [|discriminate].
    intros H. apply Ok_inj in H. injection H as <- <- <-. repeat split. discriminate. intros. eauto.
Qed.

(** * Number of sub-steps *)
Lemma steps_cover dt tfac n : 0 < tfac -> tfac <= dt -> gw_steps dt tfac = Ok n -> let d := inject_Z (gw_timestep dt tfac) in 0 < d /\ inject_Z (Z.of_nat n) * d <= dt /\ dt < (inject_Z (Z.of_nat n) + 1) * d.
Proof.
  intros Ht Hd H d. unfold gw_steps in H. destruct (Z.eqb_spec (gw_timestep dt tfac) 0) as [|Hz]; [discriminate|]. apply Ok_inj in H.
  assert (1 <= dt / tfac) by (apply Qle_shift_div_l; lra). assert (1 <= gw_timestep dt tfac)%Z. { unfold gw_timestep. change 1%Z with (Qfloor 1). apply Qfloor_resp_le. assumption. }
  assert (Hd1 : 0 < d). { unfold d. change 0 with (inject_Z 0). rewrite <- Zlt_Qlt. lia. } fold d in H. 
  assert (0 <= dt / d) by (apply Qle_shift_div_l; lra). assert (0 <= Qfloor (dt / d))%Z. { change 0%Z with (Qfloor 0). apply Qfloor_resp_le. assumption. }
  rewrite <- H, Z2Nat.id by assumption. pose proof (Qfloor_le (dt / d)) as F1. pose proof (Qlt_floor (dt / d)) as F2. split. exact Hd1.
  assert (E : dt == dt / d * d) by (field; lra). split.
  - rewrite E at 2. apply Qmult_le_compat_r; lra.
  - rewrite E at 1. apply Qmult_lt_r. exact Hd1. rewrite inject_Z_plus in F2. exact F2.
Qed.
Lemma steps_raise dt tfac : 0 <= dt -> dt < tfac -> gw_steps dt tfac = Raise ZeroDivisionError.
Proof.
  intros H1 H2. unfold gw_steps. assert (E : gw_timestep dt tfac = 0%Z); [|rewrite E; reflexivity]. unfold gw_timestep.
  assert (0 <= dt / tfac) by (apply Qle_shift_div_l; lra). assert (dt / tfac < 1) by (apply Qlt_shift_div_r; lra).
  pose proof (Qfloor_le (dt / tfac)). pose proof (Qlt_floor (dt / tfac)). assert (inject_Z (Qfloor (dt / tfac)) < inject_Z 1) by (change (inject_Z 1) with 1; lra).
  assert (inject_Z 0 < inject_Z (Qfloor (dt / tfac) + 1)) by (change (inject_Z 0) with 0; lra). rewrite <- Zlt_Qlt in *. lia.
Qed.
