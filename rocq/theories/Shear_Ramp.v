(** Proofs about the separation bubble behind a slope that ends at a cliff. *)
From Coq Require Import Reals Lra Lia Psatz ZArith.
From Verif Require Import Base Shear_Model Shear_Spec Shear_Proofs Shear_Grid Shear_Interp Shear_Stress Shear_Bubble.
Open Scope R_scope.

Section Ramp.
Variables (n b : nat) (dx c mu h s : R).
Hypothesis (Hb : (4 <= b)%nat) (Hn : (b + 4 < n)%nat) (Hdx : 0 < dx) (Hc : 0 < c) (Hh : 0 < h) (Hs : 0 <= s) (Hmu : mu < degrees (atan (h / (2 * dx)))).
Let z := ramp b dx s h.
Lemma ramp_hi m : (m <= b)%nat -> z m = h + s * (INR m + 1 - INR b) * dx.
Proof. intros H. unfold z, ramp. apply Nat.leb_le in H. rewrite H. reflexivity. Qed.
Lemma ramp_lo m : (b < m)%nat -> z m = 0.
Proof. intros H. unfold z, ramp. apply Nat.leb_gt in H. rewrite H. reflexivity. Qed.
Lemma ramp_edge i : i = (b - 1)%nat \/ i = b -> dzx n dx z i <= - degrees (atan (h / (2 * dx))).
Proof.
  intros H. unfold dzx. replace (Nat.min i (n - 3)) with i by lia. cbv zeta. rewrite ramp_lo, ramp_hi by lia.
  assert (B1 : INR b <= INR i + 1) by (rewrite <- S_INR; apply le_INR; lia).
  assert (0 <= s * (INR i + 1 - INR b) * dx) by (apply Rmult_le_pos; [apply Rmult_le_pos; lra | lra]).
  unfold degrees. pose proof PI_RGT_0. replace (- (atan (h / (2 * dx)) * 180 / PI)) with (- atan (h / (2 * dx)) * 180 / PI) by (field; lra).
  rewrite <- atan_opp. apply Rmult_le_compat_r; [left; apply Rinv_0_lt_compat; lra|]. apply Rmult_le_compat_r; [lra|].
  assert (G : (0 - (h + s * (INR i + 1 - INR b) * dx)) / (2 * dx) <= - (h / (2 * dx))).
  { replace (- (h / (2 * dx))) with ((0 - h) / (2 * dx)) by (field; lra). apply Rmult_le_compat_r; [left; apply Rinv_0_lt_compat; lra | lra]. }
  destruct G as [G|G]; [left; apply atan_increasing; exact G | right; rewrite G; reflexivity].
Qed.
Lemma ramp_level i : i <> (b - 1)%nat -> i <> b -> 0 <= dzx n dx z i.
Proof.
  intros A B. unfold dzx. cbv zeta. set (j := Nat.min i (n - 3)). assert (E : 0 <= z (j + 2)%nat - z j).
  { destruct (le_lt_dec j (b - 2)) as [L|L]; [|rewrite !ramp_lo by lia; lra]. rewrite !ramp_hi by lia. rewrite plus_INR. simpl (INR 2).
    replace (h + s * (INR j + (1 + 1) + 1 - INR b) * dx - (h + s * (INR j + 1 - INR b) * dx)) with (s * (2 * dx)) by ring. apply Rmult_le_pos; lra. }
  assert (G : 0 <= (z (j + 2)%nat - z j) / (2 * dx)) by (apply Rmult_le_pos; [exact E | left; apply Rinv_0_lt_compat; lra]).
  assert (T : 0 <= atan ((z (j + 2)%nat - z j) / (2 * dx))). { rewrite <- atan_0. destruct G as [G|G]; [left; apply atan_increasing; exact G | rewrite <- G; lra]. }
  unfold degrees. pose proof PI_RGT_0. apply Rmult_le_pos; [lra | left; apply Rinv_0_lt_compat; lra].
Qed.
Lemma ramp_stall0 i : stall0 n dx mu z i = (Nat.eqb i (b - 1) || Nat.eqb i b)%bool.
Proof.
  unfold stall0. pose proof (steep_pos dx h Hdx Hh) as P. destruct (Nat.eqb_spec i (b - 1)) as [E|E]; [|destruct (Nat.eqb_spec i b) as [E'|E']].
  - pose proof (ramp_edge i (or_introl E)) as G. rewrite Rabs_left by lra. unfold gtb. destruct (Rlt_dec mu _); [|lra]. destruct (Rlt_dec _ 0); [reflexivity | lra].
  - pose proof (ramp_edge i (or_intror E')) as G. rewrite Rabs_left by lra. unfold gtb. destruct (Rlt_dec mu _); [|lra]. destruct (Rlt_dec _ 0); [reflexivity | lra].
  - pose proof (ramp_level i E E') as G. unfold gtb at 2. destruct (Rlt_dec _ 0); [lra|]. apply Bool.andb_false_r.
Qed.
Lemma ramp_stall i : (i < n)%nat -> stall n dx mu z i = (Nat.leb (b - 1) i && Nat.leb i (b + 1))%bool.
Proof.
  intros Hi. unfold stall. rewrite !ramp_stall0.
  destruct (Nat.eqb_spec i (b - 1)); destruct (Nat.eqb_spec i b); destruct (Nat.leb_spec (b - 1) i); destruct (Nat.leb_spec i (b + 1)); destruct (Nat.eqb_spec (i - 1) (b - 1));
  destruct (Nat.eqb_spec (i - 1) b); destruct (Nat.ltb_spec 0 i); destruct (Nat.ltb_spec (S i) n); cbn; try reflexivity; exfalso; lia.
Qed.
Lemma ramp_bubbles : bubbles n dx mu z = [(b - 1)%nat].
Proof.
  unfold bubbles. apply filter_one; [lia | |].
  - intros i Hi Ne. unfold bubble, bubble0. destruct (Nat.ltb_spec (S i) n); [|reflexivity]. cbn [andb]. rewrite !ramp_stall by lia.
    destruct (Nat.leb_spec (b - 1) (i - 1)); destruct (Nat.leb_spec (i - 1) (b + 1)); destruct (Nat.leb_spec (b - 1) (S (i - 1))); destruct (Nat.leb_spec (S (i - 1)) (b + 1));
    cbn; rewrite ?Bool.andb_false_r, ?Bool.andb_true_r; try reflexivity; exfalso; lia.
  - unfold bubble, bubble0. destruct (Nat.ltb_spec (S (b - 1)) n); [|lia]. destruct (Nat.ltb_spec (S (b - 1 - 1)) n); [|lia]. rewrite !ramp_stall by lia.
    destruct (Nat.leb_spec (b - 1) (b - 1 - 1)); [lia|]. destruct (Nat.leb_spec (b - 1) (S (b - 1 - 1))); [|lia]. destruct (Nat.leb_spec (S (b - 1 - 1)) (b + 1)); [reflexivity | lia].
Qed.
Lemma ramp_top : z (b - 1)%nat = h.
Proof. rewrite ramp_hi by lia. rewrite minus_INR by lia. simpl (INR 1). ring. Qed.
Lemma ramp_brink : brink n dx z (b - 1) = h.
Proof.
  unfold brink. replace (n - (b - 1 + 5))%nat with (S (n - (b - 1 + 5) - 1)) by lia. cbn [seq filter].
  pose proof (ramp_level (b - 1 + 5) ltac:(lia) ltac:(lia)) as G. unfold leb. destruct (Rle_dec 0 _); [|lra]. rewrite ramp_top, ramp_lo by lia. ring.
Qed.
Let l := reach_rising c h s.
Lemma rising_pos : 0 < l.
Proof. unfold l, reach_rising. apply Rmin_glb_lt; [|lra]. apply (Rlt_le_trans _ (1 / 10)); [lra | apply Rmax_r]. Qed.
Lemma i_max_rising m : (b - 1 <= m)%nat -> (m + 1 < n)%nat -> ((m < i_max n dx (b - 1) l)%nat <-> (INR m + 1 - INR b) * dx <= l).
Proof.
  intros Hm Hmn. unfold i_max. pose proof rising_pos as Rp. pose proof (int_part_bounds (l / dx)) as [K1 K2]. assert (0 <= l / dx) by (apply Rlt_le, Rdiv_lt_0_compat; lra).
  assert (Z0 : (0 <= Int_part (l / dx))%Z). { apply Z.lt_succ_r. apply lt_IZR. rewrite succ_IZR. lra. }
  assert (E : INR m + 1 - INR b = IZR (Z.of_nat (m - (b - 1)))). { rewrite <- INR_IZR_INZ, minus_INR, minus_INR by lia. simpl (INR 1). ring. }
  split; intros G.
  - assert (J : (Z.of_nat (m - (b - 1)) <= Int_part (l / dx))%Z) by lia. apply IZR_le in J. rewrite <- E in J.
    assert (Q : INR m + 1 - INR b <= l / dx) by lra. apply (Rmult_le_compat_r dx) in Q; [|lra]. replace (l / dx * dx) with l in Q by (field; lra). exact Q.
  - assert (Q : INR m + 1 - INR b <= l / dx). { apply (Rmult_le_reg_r dx); [lra|]. replace (l / dx * dx) with l by (field; lra). exact G. }
    rewrite E in Q. assert (J : IZR (Z.of_nat (m - (b - 1))) < IZR (Int_part (l / dx) + 1)) by (rewrite plus_IZR; lra). apply lt_IZR in J. lia.
Qed.
Lemma ramp_separation m : (m + 1 < n)%nat -> let x := (INR m + 1 - INR b) * dx in
  separation n dx c mu z m = if (Nat.leb m b)%bool then Rmax (z m) 0 else
    if Rle_dec x l then h * fall (x / l) + s * x * (1 - x / l) ^ 2 else 0.
Proof.
  intros Hm x. unfold separation. rewrite ramp_bubbles. cbn [fold_left]. unfold add_bubble. cbn [fst snd]. rewrite ramp_brink, ramp_top.
  assert (D : (h - back3 n z (b - 1)) / (3 * dx) = s).
  { unfold back3. destruct (Nat.ltb_spec (b - 1) 3); [lia|]. rewrite !ramp_hi by lia. rewrite !minus_INR by lia. simpl (INR 1). simpl (INR 3). field. lra. }
  rewrite D. change (reattach c h s) with l. pose proof rising_pos as Rp.
  assert (C : cubic h s l h (INR m * dx - INR (b - 1) * dx) = h * fall (x / l) + s * x * (1 - x / l) ^ 2).
  { unfold cubic, fall, x. rewrite minus_INR by lia. simpl (INR 1). field. lra. }
  rewrite C. set (t := x / l).
  assert (X : x = t * l) by (unfold t; field; lra).
  assert (T1 : x <= l -> t <= 1). { intros G. apply (Rmult_le_reg_r l); [exact Rp|]. rewrite <- X. lra. }
  assert (T0 : 0 <= x -> 0 <= t). { intros G. unfold t. apply Rmult_le_pos; [exact G | left; apply Rinv_0_lt_compat; exact Rp]. }
  assert (Bm : (b - 1 <= m)%nat -> 0 <= x).
  { intros G. assert (INR b - 1 <= INR m) by (replace (INR b - 1) with (INR (b - 1)) by (rewrite minus_INR by lia; reflexivity); apply le_INR; lia). unfold x. apply Rmult_le_pos; lra. }
  destruct (Nat.leb_spec m b) as [L|L].
  - assert (Q : (if (b - 1 <=? m)%nat && (m <? i_max n dx (b - 1) l)%nat then h * fall t + s * x * (1 - t) ^ 2 else 0) <= Rmax (z m) 0).
    { destruct (Nat.leb_spec (b - 1) m) as [L'|L']; [|cbn; apply Rmax_r]. destruct (Nat.ltb_spec m (i_max n dx (b - 1) l)) as [I|I]; [|cbn; apply Rmax_r]. cbn [andb].
      apply i_max_rising in I; [|lia | lia]. fold x in I. specialize (T1 I). specialize (Bm L'). specialize (T0 Bm).
      rewrite (ramp_hi m L). apply (Rle_trans _ (h + s * (INR m + 1 - INR b) * dx)); [|apply Rmax_l]. replace (s * (INR m + 1 - INR b) * dx) with (s * x) by (unfold x; ring).
      unfold fall. assert (0 <= t ^ 2 * (3 - 2 * t)) by (apply Rmult_le_pos; [apply pow2_ge_0 | lra]). assert (0 <= h * (t ^ 2 * (3 - 2 * t))) by (apply Rmult_le_pos; lra).
      assert (0 <= s * x) by (apply Rmult_le_pos; lra). assert (0 <= s * x * (t * (2 - t))) by (apply Rmult_le_pos; [lra | apply Rmult_le_pos; lra]). lra. }
    rewrite (Rmax_left (Rmax (z m) 0)) by exact Q. destruct (Rlt_dec _ _) as [W|W]; [|reflexivity]. pose proof (Rmax_l (z m) 0). lra.
  - rewrite (ramp_lo m L). destruct (Nat.leb_spec (b - 1) m) as [L'|L']; [|lia]. cbn [andb]. rewrite (Rmax_left 0 0) by lra.
    specialize (Bm L'). specialize (T0 Bm).
    destruct (Nat.ltb_spec m (i_max n dx (b - 1) l)) as [I|I].
    + apply i_max_rising in I; [|lia | lia]. fold x in I. destruct (Rle_dec x l); [|lra]. specialize (T1 I).
      assert (F : 0 <= h * fall t + s * x * (1 - t) ^ 2).
      { unfold fall. replace (1 - 3 * t ^ 2 + 2 * t ^ 3) with ((1 - t) ^ 2 * (1 + 2 * t)) by ring.
        assert (0 <= (1 - t) ^ 2) by apply pow2_ge_0. assert (0 <= s * x) by (apply Rmult_le_pos; lra).
        apply Rplus_le_le_0_compat; [apply Rmult_le_pos; [lra | apply Rmult_le_pos; [assumption | lra]] | apply Rmult_le_pos; assumption]. }
      rewrite Rmax_right by exact F. destruct (Rlt_dec _ 0); [lra | reflexivity].
    + destruct (Rle_dec x l) as [J|J]; [|rewrite Rmax_left by lra; destruct (Rlt_dec 0 0); reflexivity]. apply i_max_rising in J; [|lia | lia]. lia.
Qed.
End Ramp.
Lemma c116_ramp : forall n b dx c mu h s m, (4 <= b)%nat -> (b + 4 < n)%nat -> 0 < dx -> 0 < c -> 0 < h -> 0 <= s -> mu < degrees (atan (h / (2 * dx))) -> (m + 1 < n)%nat ->
  let x := (INR m + 1 - INR b) * dx in
  let l := reach_rising c h s in
  ((m <= b)%nat -> separation n dx c mu (ramp b dx s h) m = Rmax (ramp b dx s h m) 0) /\
  ((b < m)%nat -> x <= l -> separation n dx c mu (ramp b dx s h) m = h * fall (x / l) + s * x * (1 - x / l) ^ 2) /\
  ((b < m)%nat -> l < x -> separation n dx c mu (ramp b dx s h) m = 0).
Proof.
  intros n b dx c mu h s m Hb Hn Hx Hc Hh Hs Hmu Hm x l. rewrite (ramp_separation n b dx c mu h s Hb Hn Hx Hh Hs Hmu m) by lia. cbv zeta. fold x l.
  split; [|split].
  - intros L. apply Nat.leb_le in L. rewrite L. reflexivity.
  - intros L G. destruct (Nat.leb_spec m b); [lia|]. destruct (Rle_dec x l); [reflexivity | lra].
  - intros L G. destruct (Nat.leb_spec m b); [lia|]. destruct (Rle_dec x l); [lra | reflexivity].
Qed.
Lemma c116_longer : forall c h s t, 0 < c -> 0 < h -> - c <= s <= t -> reattach c h s <= reattach c h t /\
  (1 / 10 < reattach c h s -> s < t -> reattach c h t < 200 -> reattach c h s < reattach c h t).
Proof.
  intros c h s t Hc Hh [H1 H2]. set (f := fun d => 3 * h / (2 * c) * (1 + d / c / 4 + (d / c) ^ 2 / 8)).
  assert (E : forall d, reattach c h d = Rmin (Rmax (f d) (1 / 10)) 200) by reflexivity. rewrite !E.
  assert (K : 0 < 3 * h / (2 * c)) by (apply Rdiv_lt_0_compat; lra).
  assert (D : f t - f s = 3 * h / (2 * c) * ((t - s) / (8 * c ^ 2) * (2 * c + s + t))) by (unfold f; field; lra).
  assert (C2 : 0 < 8 * c ^ 2) by (assert (0 < c ^ 2) by (apply pow_lt; exact Hc); lra).
  split.
  - assert (M : f s <= f t). { assert (0 <= f t - f s); [|lra]. rewrite D. apply Rmult_le_pos; [lra|]. apply Rmult_le_pos; [|lra]. apply Rmult_le_pos; [lra | left; apply Rinv_0_lt_compat; exact C2]. }
    apply Rmin_glb; [|apply Rmin_r]. apply (Rle_trans _ (Rmax (f s) (1 / 10))); [apply Rmin_l|]. apply Rmax_lub; [|apply Rmax_r]. apply (Rle_trans _ (f t)); [exact M | apply Rmax_l].
  - intros A B G. assert (M : f s < f t). { assert (0 < f t - f s); [|lra]. rewrite D. apply Rmult_lt_0_compat; [lra|]. apply Rmult_lt_0_compat; [|lra]. apply Rmult_lt_0_compat; [lra | apply Rinv_0_lt_compat; exact C2]. }
    unfold Rmin, Rmax in *. repeat destruct (Rle_dec _ _); lra.
Qed.
