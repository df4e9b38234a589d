(** Proofs about the separation bubble behind a cliff and about the stress in a cell. *)
From Coq Require Import Reals Lra Lia Psatz ZArith.
From Verif Require Import Base Shear_Model Shear_Spec Shear_Proofs Shear_Grid Shear_Interp Shear_Stress.
Open Scope R_scope.

Lemma filter_none (f : nat -> bool) l : (forall i, In i l -> f i = false) -> filter f l = [].
Proof. induction l as [|i l IH]; intros H; [reflexivity|]. cbn. rewrite (H i) by (left; reflexivity). apply IH. intros k Hk. apply H. right. exact Hk. Qed.
Lemma filter_one (f : nat -> bool) n k : (k < n)%nat -> (forall i, (i < n)%nat -> i <> k -> f i = false) -> f k = true -> filter f (seq 0 n) = [k].
Proof.
  intros Hk Hf Ht. replace n with (k + S (n - k - 1))%nat by lia. rewrite seq_app, filter_app. cbn [seq Nat.add filter]. rewrite Ht.
  rewrite !filter_none; [reflexivity | |]; intros i Hi; apply in_seq in Hi; apply Hf; lia.
Qed.
Section Cliff.
Variables (n b : nat) (dx c mu h : R).
Hypothesis (Hb : (4 <= b)%nat) (Hn : (b + 4 < n)%nat) (Hdx : 0 < dx) (Hc : 0 < c) (Hh : 0 < h) (Hmu : mu < degrees (atan (h / (2 * dx)))).
Let z := cliff b h.
Lemma cliff_hi m : (m <= b)%nat -> z m = h.
Proof. intros H. unfold z, cliff. apply Nat.leb_le in H. rewrite H. reflexivity. Qed.
Lemma cliff_lo m : (b < m)%nat -> z m = 0.
Proof. intros H. unfold z, cliff. apply Nat.leb_gt in H. rewrite H. reflexivity. Qed.
Lemma cliff_edge i : i = (b - 1)%nat \/ i = b -> dzx n dx z i = - degrees (atan (h / (2 * dx))).
Proof.
  intros H. unfold dzx. replace (Nat.min i (n - 3)) with i by lia. cbv zeta. rewrite cliff_lo, cliff_hi by lia.
  replace ((0 - h) / (2 * dx)) with (- (h / (2 * dx))) by (field; lra). rewrite atan_opp. unfold degrees. lra.
Qed.
Lemma cliff_level i : i <> (b - 1)%nat -> i <> b -> dzx n dx z i = 0.
Proof.
  intros A B. unfold dzx. cbv zeta. set (j := Nat.min i (n - 3)). assert (E : z (j + 2)%nat = z j).
  { destruct (le_lt_dec j (b - 2)) as [L|L]; [rewrite !cliff_hi by lia; reflexivity|]. rewrite !cliff_lo by lia. reflexivity. }
  rewrite E. replace ((z j - z j) / (2 * dx)) with 0 by (field; lra). rewrite atan_0. unfold degrees. lra.
Qed.
Lemma steep_pos : 0 < degrees (atan (h / (2 * dx))).
Proof.
  unfold degrees. pose proof PI_RGT_0. assert (0 < atan (h / (2 * dx))). { rewrite <- atan_0. apply atan_increasing. apply Rdiv_lt_0_compat; lra. }
  apply Rdiv_lt_0_compat; lra.
Qed.
Lemma cliff_stall0 i : stall0 n dx mu z i = (Nat.eqb i (b - 1) || Nat.eqb i b)%bool.
Proof.
  unfold stall0. pose proof steep_pos as P. destruct (Nat.eqb_spec i (b - 1)) as [E|E]; [|destruct (Nat.eqb_spec i b) as [E'|E']].
  - rewrite cliff_edge by (left; exact E). rewrite Rabs_Ropp, Rabs_pos_eq by lra. unfold gtb. destruct (Rlt_dec mu _); [|lra]. destruct (Rlt_dec _ 0); [reflexivity | lra].
  - rewrite cliff_edge by (right; exact E'). rewrite Rabs_Ropp, Rabs_pos_eq by lra. unfold gtb. destruct (Rlt_dec mu _); [|lra]. destruct (Rlt_dec _ 0); [reflexivity | lra].
  - rewrite cliff_level by assumption. unfold gtb at 2. destruct (Rlt_dec 0 0); [lra|]. apply Bool.andb_false_r.
Qed.
Lemma cliff_stall i : (i < n)%nat -> stall n dx mu z i = (Nat.leb (b - 1) i && Nat.leb i (b + 1))%bool.
Proof.
  intros Hi. unfold stall. rewrite !cliff_stall0.
  destruct (Nat.eqb_spec i (b - 1)); destruct (Nat.eqb_spec i b); destruct (Nat.leb_spec (b - 1) i); destruct (Nat.leb_spec i (b + 1)); destruct (Nat.eqb_spec (i - 1) (b - 1));
  destruct (Nat.eqb_spec (i - 1) b); destruct (Nat.ltb_spec 0 i); destruct (Nat.ltb_spec (S i) n); cbn; try reflexivity; exfalso; lia.
Qed.
Lemma cliff_bubbles : bubbles n dx mu z = [(b - 1)%nat].
Proof.
  unfold bubbles. apply filter_one; [lia | |].
  - intros i Hi Ne. unfold bubble, bubble0. destruct (Nat.ltb_spec (S i) n); [|reflexivity]. cbn [andb]. rewrite !cliff_stall by lia.
    destruct (Nat.leb_spec (b - 1) (i - 1)); destruct (Nat.leb_spec (i - 1) (b + 1)); destruct (Nat.leb_spec (b - 1) (S (i - 1))); destruct (Nat.leb_spec (S (i - 1)) (b + 1));
    cbn; rewrite ?Bool.andb_false_r, ?Bool.andb_true_r; try reflexivity; exfalso; lia.
  - unfold bubble, bubble0. destruct (Nat.ltb_spec (S (b - 1)) n); [|lia]. destruct (Nat.ltb_spec (S (b - 1 - 1)) n); [|lia]. rewrite !cliff_stall by lia.
    destruct (Nat.leb_spec (b - 1) (b - 1 - 1)); [lia|]. destruct (Nat.leb_spec (b - 1) (S (b - 1 - 1))); [|lia]. destruct (Nat.leb_spec (S (b - 1 - 1)) (b + 1)); [reflexivity | lia].
Qed.
Lemma cliff_brink : brink n dx z (b - 1) = h.
Proof.
  unfold brink. replace (n - (b - 1 + 5))%nat with (S (n - (b - 1 + 5) - 1)) by lia. cbn [seq filter].
  rewrite cliff_level by lia. unfold leb. destruct (Rle_dec 0 0); [|lra]. rewrite cliff_hi, cliff_lo by lia. ring.
Qed.
Lemma reach_pos : 0 < reach c h.
Proof. unfold reach. apply Rmin_glb_lt; [|lra]. apply (Rlt_le_trans _ (1 / 10)); [lra | apply Rmax_r]. Qed.
Lemma c116_cliff_in m : (m < n)%nat ->
  separation n dx c mu z m = if (Nat.leb m b)%bool then h else
    if (Nat.ltb m (i_max n dx (b - 1) (reach c h)))%bool then h * fall ((INR m + 1 - INR b) * dx / reach c h) else 0.
Proof.
  intros Hm. unfold separation. rewrite cliff_bubbles. cbn [fold_left]. unfold add_bubble. cbn [fst snd]. rewrite cliff_brink.
  assert (D : (z (b - 1)%nat - back3 n z (b - 1)) / (3 * dx) = 0).
  { unfold back3. destruct (Nat.ltb_spec (b - 1) 3); [lia|]. rewrite !cliff_hi by lia. field. lra. }
  rewrite D. assert (E : reattach c h 0 = reach c h). { unfold reattach, reach. do 2 f_equal. field. lra. }
  rewrite E. pose proof reach_pos as Rp.
  assert (C : cubic h 0 (reach c h) (z (b - 1)%nat) (INR m * dx - INR (b - 1) * dx) = h * fall ((INR m + 1 - INR b) * dx / reach c h)).
  { unfold cubic, fall. rewrite cliff_hi by lia. rewrite minus_INR by lia. simpl (INR 1). field. lra. }
  rewrite C. set (s := (INR m + 1 - INR b) * dx / reach c h).
  destruct (Nat.leb_spec m b) as [L|L].
  - rewrite (cliff_hi m L). assert (Q : (if (b - 1 <=? m)%nat && (m <? i_max n dx (b - 1) (reach c h))%nat then h * fall s else 0) <= h).
    { destruct (Nat.leb_spec (b - 1) m) as [L'|L']; [|cbn; lra]. destruct (Nat.ltb_spec m (i_max n dx (b - 1) (reach c h))) as [I|I]; [|cbn; lra]. cbn [andb].
      unfold fall. assert (0 <= s <= 1).
      { unfold s. assert (B1 : INR b - 1 <= INR m) by (replace (INR b - 1) with (INR (b - 1)) by (rewrite minus_INR by lia; reflexivity); apply le_INR; lia).
        split; [apply Rmult_le_pos; [nra | left; apply Rinv_0_lt_compat; exact Rp]|].
        apply (Rmult_le_reg_r (reach c h)); [exact Rp|]. replace ((INR m + 1 - INR b) * dx / reach c h * reach c h) with ((INR m + 1 - INR b) * dx) by (field; lra). rewrite Rmult_1_l.
        unfold i_max in I. assert (J : (m - (b - 1) <= Z.to_nat (Int_part (reach c h / dx)))%nat) by lia.
        apply le_INR in J. rewrite minus_INR in J by lia. rewrite minus_INR in J by lia. simpl (INR 1) in J.
        assert (K : INR (Z.to_nat (Int_part (reach c h / dx))) <= reach c h / dx).
        { pose proof (int_part_bounds (reach c h / dx)) as [K1 K2]. assert (0 <= reach c h / dx) by (apply Rlt_le, Rdiv_lt_0_compat; lra).
          assert (0 <= Int_part (reach c h / dx))%Z. { apply Z.lt_succ_r. apply lt_IZR. rewrite succ_IZR. lra. }
          rewrite INR_IZR_INZ, Z2Nat.id by lia. exact K1. }
        assert (G : (INR m + 1 - INR b) <= reach c h / dx) by lra. apply (Rmult_le_compat_r dx) in G; [|lra]. replace (reach c h / dx * dx) with (reach c h) in G by (field; lra). exact G. }
      assert (0 <= s ^ 2 * (3 - 2 * s)) by (apply Rmult_le_pos; [apply pow2_ge_0 | lra]). assert (0 <= h * (s ^ 2 * (3 - 2 * s))) by (apply Rmult_le_pos; lra). lra. }
    rewrite Rmax_left by (rewrite Rmax_left by lra; exact Q). rewrite Rmax_left by lra. destruct (Rlt_dec h h); reflexivity.
  - rewrite (cliff_lo m L). destruct (Nat.leb_spec (b - 1) m) as [L'|L']; [|lia]. cbn [andb]. rewrite (Rmax_left 0 0) by lra.
    destruct (Nat.ltb_spec m (i_max n dx (b - 1) (reach c h))) as [I|I].
    + assert (F : 0 <= fall s).
      { unfold fall. assert (0 <= s <= 1).
        { unfold s. assert (B1 : INR b <= INR m) by (apply le_INR; lia).
          split; [apply Rmult_le_pos; [nra | left; apply Rinv_0_lt_compat; exact Rp]|].
          apply (Rmult_le_reg_r (reach c h)); [exact Rp|]. replace ((INR m + 1 - INR b) * dx / reach c h * reach c h) with ((INR m + 1 - INR b) * dx) by (field; lra). rewrite Rmult_1_l.
          unfold i_max in I. assert (J : (m - (b - 1) <= Z.to_nat (Int_part (reach c h / dx)))%nat) by lia.
          apply le_INR in J. rewrite minus_INR in J by lia. rewrite minus_INR in J by lia. simpl (INR 1) in J.
          assert (K : INR (Z.to_nat (Int_part (reach c h / dx))) <= reach c h / dx).
          { pose proof (int_part_bounds (reach c h / dx)) as [K1 K2]. assert (0 <= reach c h / dx) by (apply Rlt_le, Rdiv_lt_0_compat; lra).
            assert (0 <= Int_part (reach c h / dx))%Z. { apply Z.lt_succ_r. apply lt_IZR. rewrite succ_IZR. lra. }
            rewrite INR_IZR_INZ, Z2Nat.id by lia. exact K1. }
          assert (G : (INR m + 1 - INR b) <= reach c h / dx) by lra. apply (Rmult_le_compat_r dx) in G; [|lra]. replace (reach c h / dx * dx) with (reach c h) in G by (field; lra). exact G. }
        replace (1 - 3 * s ^ 2 + 2 * s ^ 3) with ((1 - s) ^ 2 * (1 + 2 * s)) by ring. apply Rmult_le_pos; [apply pow2_ge_0 | lra]. }
      rewrite Rmax_right by nra. destruct (Rlt_dec _ 0); [nra | reflexivity].
    + rewrite Rmax_left by lra. destruct (Rlt_dec 0 0); reflexivity.
Qed.
Lemma i_max_reach m : (b < m)%nat -> (m + 1 < n)%nat -> ((m < i_max n dx (b - 1) (reach c h))%nat <-> (INR m + 1 - INR b) * dx <= reach c h).
Proof.
  intros Hm Hmn. unfold i_max. pose proof reach_pos as Rp. pose proof (int_part_bounds (reach c h / dx)) as [K1 K2]. assert (0 <= reach c h / dx) by (apply Rlt_le, Rdiv_lt_0_compat; lra).
  assert (Z0 : (0 <= Int_part (reach c h / dx))%Z). { apply Z.lt_succ_r. apply lt_IZR. rewrite succ_IZR. lra. }
  assert (E : INR m + 1 - INR b = IZR (Z.of_nat (m - (b - 1)))). { rewrite <- INR_IZR_INZ, minus_INR, minus_INR by lia. simpl (INR 1). ring. }
  split; intros G.
  - assert (J : (Z.of_nat (m - (b - 1)) <= Int_part (reach c h / dx))%Z) by lia. apply IZR_le in J. rewrite <- E in J.
    assert (Q : INR m + 1 - INR b <= reach c h / dx) by lra. apply (Rmult_le_compat_r dx) in Q; [|lra]. replace (reach c h / dx * dx) with (reach c h) in Q by (field; lra). exact Q.
  - assert (Q : INR m + 1 - INR b <= reach c h / dx). { apply (Rmult_le_reg_r dx); [lra|]. replace (reach c h / dx * dx) with (reach c h) by (field; lra). exact G. }
    rewrite E in Q. assert (J : IZR (Z.of_nat (m - (b - 1))) < IZR (Int_part (reach c h / dx) + 1)) by (rewrite plus_IZR; lra). apply lt_IZR in J. lia.
Qed.
End Cliff.
Lemma c116_cliff : forall n b dx c mu h m, (4 <= b)%nat -> (b + 4 < n)%nat -> 0 < dx -> 0 < c -> 0 < h -> mu < degrees (atan (h / (2 * dx))) -> (m + 1 < n)%nat ->
  ((m <= b)%nat -> separation n dx c mu (cliff b h) m = h) /\
  ((b < m)%nat -> (INR m + 1 - INR b) * dx <= reach c h -> separation n dx c mu (cliff b h) m = h * fall ((INR m + 1 - INR b) * dx / reach c h)) /\
  ((b < m)%nat -> reach c h < (INR m + 1 - INR b) * dx -> separation n dx c mu (cliff b h) m = 0).
Proof.
  intros n b dx c mu h m Hb Hn Hx Hc Hh Hmu Hm. rewrite (c116_cliff_in n b dx c mu h Hb Hn Hx Hc Hh Hmu m) by lia.
  split; [|split].
  - intros L. apply Nat.leb_le in L. rewrite L. reflexivity.
  - intros L G. destruct (Nat.leb_spec m b); [lia|]. apply (i_max_reach n b dx c h Hb Hn Hx m L Hm) in G. apply Nat.ltb_lt in G. rewrite G. reflexivity.
  - intros L G. destruct (Nat.leb_spec m b); [lia|]. destruct (Nat.ltb_spec m (i_max n dx (b - 1) (reach c h))) as [I|I]; [|reflexivity].
    apply (i_max_reach n b dx c h Hb Hn Hx m L Hm) in I. lra.
Qed.

(** ** The stress in a cell *)
Lemma turn_across u t : snd (turn (270 - u) (0, 0) t) = across u t.
Proof.
  unfold turn, across, along, blows_to. cbn [fst snd]. rewrite cos_wind, sin_wind, cos_left, sin_left. ring.
Qed.
Lemma c115_perturbed : forall p udir m dt h, 0 < m -> process_separation p = false ->
  let t0 := (m * fst (blows_to udir), m * snd (blows_to udir)) in
  along udir (cell_stress p udir t0 dt h) = m * Rmax (1 + fst dt) 0 /\ across udir (cell_stress p udir t0 dt h) = m * snd dt.
Proof.
  intros p u m dt h Hm Hp t0. unfold cell_stress. rewrite Hp. rewrite <- turn_along, <- turn_across, turn_forth.
  assert (T : turn (270 - u) (0, 0) t0 = (m, 0)).
  { rewrite (surjective_pairing (turn _ _ _)), turn_along, turn_across. unfold t0, along, across, along, blows_to. cbn [fst snd]. rewrite cos_left, sin_left. pose proof (cs (radians u)). f_equal; [|ring].
    replace (m * - sin (radians u) * - sin (radians u) + m * - cos (radians u) * - cos (radians u)) with (m * (cos (radians u) * cos (radians u) + sin (radians u) * sin (radians u))) by ring. rewrite H. ring. }
  rewrite T. unfold add_shear, not_backward. cbv zeta. cbn [fst snd].
  replace (m ^ 2 + 0 ^ 2) with (m ^ 2) by ring. rewrite sqrt_pow2 by lra. destruct (Req_EM_T m 0); [lra|]. cbn [fst snd]. split.
  - replace (m / m) with 1 by (field; lra). unfold Rmax. destruct (Rle_dec (m * (1 + fst dt)) 0); destruct (Rle_dec (1 + fst dt) 0); nra.
  - field. lra.
Qed.
