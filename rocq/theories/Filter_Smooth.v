(** Proofs about smoothing across the wind, and about iterations behind a cliff. *)
From Coq Require Import Reals Lra Lia Psatz ZArith.
From Verif Require Import Base Shear_Model Shear_Spec Shear_Proofs Shear_Grid Shear_Interp Shear_Stress Shear_Fourier Shear_Bubble Filter_Model Filter_Spec Filter_Proofs.
From Coq Require Import List.
Import ListNotations.
Open Scope R_scope.

Lemma weight_pos : 0 < side_weight.
Proof. apply exp_pos. Qed.
Lemma exp_times n x : exp (INR n * x) = exp x ^ n.
Proof. induction n as [|n IH]; [cbn; rewrite Rmult_0_l; apply exp_0|]. rewrite S_INR. replace ((INR n + 1) * x) with (x + INR n * x) by ring. rewrite exp_plus, IH. reflexivity. Qed.
Lemma weight_small : side_weight <= 1 / 100000.
Proof.
  assert (B : 100000 <= exp (25 / 2)).
  { replace (25 / 2) with (INR 200 * (1 / 16)) by (rewrite INR_IZR_INZ; cbn; lra). rewrite exp_times. apply Rle_trans with ((17 / 16) ^ 200).
    - assert (E : 100000 * 16 ^ 200 <= 17 ^ 200). { rewrite !pow_IZR, <- mult_IZR. apply IZR_le. vm_compute. discriminate. }
      assert (P : 0 < 16 ^ 200) by (apply pow_lt; lra). unfold Rdiv. rewrite Rpow_mult_distr, pow_inv by lra. apply (Rmult_le_reg_r (16 ^ 200)); [exact P|].
      rewrite Rmult_assoc, Rinv_l by lra. rewrite Rmult_1_r. exact E.
    - apply pow_incr. split; [lra|]. left. eapply Rle_lt_trans; [|apply exp_ineq1; lra]. lra. }
  unfold side_weight. replace (- (1 / 2) / (2 / 10) ^ 2) with (- (25 / 2)) by (cbn; field). rewrite exp_Ropp. unfold Rdiv. rewrite Rmult_1_l. apply Rinv_le_contravar; lra.
Qed.
Lemma smooth_range : forall m v l lo hi r, column_between m v l lo hi -> (r < m)%nat -> lo <= smooth m v r l <= hi.
Proof.
  intros m v l lo hi r H Hr. pose proof weight_pos as W. unfold smooth. pose proof (H r Hr) as A. pose proof (H (r - 1)%nat ltac:(lia)) as B. pose proof (H (Nat.min (S r) (m - 1)) ltac:(lia)) as C.
  set (w := side_weight) in *. split; [apply (Rmult_le_reg_r (1 + 2 * w)) | apply (Rmult_le_reg_r (1 + 2 * w))]; try lra;
  unfold Rdiv; rewrite Rmult_assoc, Rinv_l by lra; rewrite Rmult_1_r; nra.
Qed.
Lemma smooth_tiny : forall m v l lo hi r, column_between m v l lo hi -> (r < m)%nat -> Rabs (smooth m v r l - v r l) <= (hi - lo) / 50000.
Proof.
  intros m v l lo hi r H Hr. pose proof weight_pos as W. pose proof weight_small as S1. unfold smooth. pose proof (H r Hr) as A. pose proof (H (r - 1)%nat ltac:(lia)) as B.
  pose proof (H (Nat.min (S r) (m - 1)) ltac:(lia)) as C. set (w := side_weight) in *. set (x := v r l) in *. set (y := v (r - 1)%nat l) in *. set (u := v (Nat.min (S r) (m - 1)) l) in *.
  replace ((x + w * (y + u)) / (1 + 2 * w) - x) with (w * (y + u - 2 * x) / (1 + 2 * w)) by (field; lra).
  assert (I : 0 < / (1 + 2 * w) <= 1). { split; [apply Rinv_0_lt_compat; lra|]. rewrite <- Rinv_1. apply Rinv_le_contravar; lra. }
  set (i := / (1 + 2 * w)) in *. unfold Rdiv. fold i. assert (K : 0 <= w * i <= 1 / 100000) by (split; nra).
  assert (Q : - (2 * (hi - lo)) <= y + u - 2 * x <= 2 * (hi - lo)) by lra. replace (w * (y + u - 2 * x) * i) with (w * i * (y + u - 2 * x)) by ring. set (k := w * i) in *.
  apply Rabs_le. split; nra.
Qed.
Lemma volume_down v l m : volume (S m) (fun r l => v (r - 1)%nat l) l = v 0%nat l + volume m v l.
Proof. induction m as [|m IH]; [cbn; ring|]. cbn [volume] in *. rewrite IH. replace (S m - 1)%nat with m by lia. ring. Qed.
Lemma volume_up v l m : forall k, (k <= m)%nat -> volume k (fun r l => v (Nat.min (S r) m) l) l = volume (S k) v l - v 0%nat l.
Proof. induction k as [|k IH]; intros H; [cbn; ring|]. cbn [volume] in *. rewrite IH by lia. replace (Nat.min (S k) m) with (S k) by lia. ring. Qed.
Lemma volume_linear w v a b l m : volume m (fun r l => (v r l + w * (a r l + b r l)) / (1 + 2 * w)) l = (volume m v l + w * (volume m a l + volume m b l)) / (1 + 2 * w).
Proof. induction m as [|m IH]; cbn; [|rewrite IH]; unfold Rdiv; ring. Qed.
Lemma smooth_volume : forall m v l, volume m (smooth m v) l = volume m v l.
Proof.
  intros m v l. destruct m as [|m]; [reflexivity|]. unfold smooth. rewrite (volume_linear side_weight v (fun r l => v (r - 1)%nat l) (fun r l => v (Nat.min (S r) (S m - 1)) l)).
  replace (S m - 1)%nat with m by lia. rewrite volume_down. cbn [volume]. rewrite volume_up by lia. replace (Nat.min (S m) m) with m by lia. cbn [volume]. pose proof weight_pos. field. lra.
Qed.
Lemma smooth_level : forall m v l h r, column_between m v l h h -> (r < m)%nat -> smooth m v r l = h.
Proof. intros m v l h r H Hr. pose proof (smooth_range m v l h h r H Hr). lra. Qed.
Lemma smooth_lower m a b r l : (forall r l, a r l <= b r l) -> smooth m a r l <= smooth m b r l.
Proof.
  intros H. pose proof weight_pos as W. unfold smooth. apply Rmult_le_compat_r; [left; apply Rinv_0_lt_compat; lra|]. pose proof (H r l). pose proof (H (r - 1)%nat l).
  pose proof (H (Nat.min (S r) (m - 1)) l). nra.
Qed.
Lemma surface_higher : forall m n dx c mu xmax z it yf s s0, separation_surface m n dx c mu xmax z it yf = Ok s -> separation_surface m n dx c mu xmax z 0 yf = Ok s0 -> forall r l, s0 r l <= s r l.
Proof.
  intros m n dx c mu xmax z it yf s s0 Hs H0 r l. unfold separation_surface in *.
  destruct (walk n dx c xmax z it 0 (places m n dx mu z) (fun _ _ => 0, fun _ _ => 0)) as [t|] eqn:Et; cbn [bind] in Hs; [|discriminate].
  destruct (walk n dx c xmax z 0 0 (places m n dx mu z) (fun _ _ => 0, fun _ _ => 0)) as [t0|] eqn:E0; cbn [bind] in H0; [|discriminate].
  injection Hs as <-. injection H0 as <-. assert (G : good (fun _ _ => 0, fun _ _ => 0)) by (intros a b; cbn; lra).
  pose proof (walk_lower n dx c xmax z it _ _ _ _ _ _ G G (fun a b => Rle_refl _) E0 Et) as L.
  destruct yf; [pose proof (smooth_lower m _ _ r l L) as K | pose proof (L r l) as K]; repeat destruct (Rlt_dec _ _); lra.
Qed.

Lemma walk_good n dx c xmax z it l : forall k s s', good s -> walk n dx c xmax z it k l s = Ok s' -> good s'.
Proof.
  induction l as [|[j i] l IH]; intros k s s' G H; cbn [walk] in H; [injection H as <-; exact G|].
  destruct (one_bubble n dx c xmax z it k j i s) as [s1|] eqn:E; cbn [bind] in H; [|discriminate]. apply bubble_split in E as (s2 & E & ->).
  refine (IH _ _ _ _ H). apply iter_good. apply (plain_value n dx c xmax z _ _ _ _ _ G E).
Qed.
Lemma surface_tiny : forall m n dx c mu xmax z it s s1 l hi, separation_surface m n dx c mu xmax z it false = Ok s -> separation_surface m n dx c mu xmax z it true = Ok s1 ->
  (forall r, (r < m)%nat -> s r l <= hi) -> forall r, (r < m)%nat -> Rabs (s1 r l - s r l) <= hi / 50000.
Proof.
  intros m n dx c mu xmax z it s s1 l hi Hs H1 B r Hr. unfold separation_surface in *.
  destruct (walk n dx c xmax z it 0 (places m n dx mu z) (fun _ _ => 0, fun _ _ => 0)) as [t|] eqn:Et; cbn [bind] in Hs, H1; [|discriminate].
  injection Hs as <-. injection H1 as <-. assert (G : good (fun _ _ => 0, fun _ _ => 0)) by (intros a b; cbn; lra).
  pose proof (walk_good _ _ _ _ _ _ _ _ _ _ G Et) as Gt.
  assert (C : column_between m (snd t) l 0 hi). { intros q Hq. split; [apply Gt|]. specialize (B q Hq). cbn beta in B. destruct (Rlt_dec _ _) in B; lra. }
  pose proof (smooth_tiny m (snd t) l 0 hi r C Hr) as K. rewrite Rminus_0_r in K. set (q := smooth m (snd t) r l - snd t r l) in K. pose proof (Rle_abs q) as K1. pose proof (Rle_abs (- q)) as K2. rewrite Rabs_Ropp in K2. subst q. apply Rabs_le. repeat destruct (Rlt_dec _ _); lra.
Qed.

(** ** Behind a cliff *)
Section Cliff.
Variables (m n b : nat) (dx c mu h xmax : R).
Hypothesis (Hb : (4 <= b)%nat) (Hn : (b + 4 < n)%nat) (Hdx : 0 < dx) (Hc : 0 < c) (Hh : 0 < h) (Hmu : mu < degrees (atan (h / (2 * dx)))).
Let z : field := fun _ => cliff b h.
Let T (l : nat) : R := separation n dx c mu (cliff b h) l.
Lemma target l : T l = Rmax (Rmax (cliff b h l) 0) (streamline n dx c z 0 (b - 1) l 0).
Proof.
  unfold T, separation. rewrite (cliff_bubbles n b dx mu h Hb Hn Hdx Hh Hmu). cbn [fold_left]. unfold add_bubble. cbn [fst snd]. unfold streamline, z. cbv zeta.
  destruct (Rlt_dec _ _) as [L|L]; [|reflexivity]. exfalso. apply (Rle_not_lt _ _ (Rle_trans _ _ _ (Rmax_l (cliff b h l) 0) (Rmax_l _ _)) L).
Qed.
Lemma target_bed l : cliff b h l <= T l /\ 0 <= T l /\ streamline n dx c z 0 (b - 1) l 0 <= T l.
Proof.
  rewrite target. split; [|split].
  - eapply Rle_trans; apply Rmax_l.
  - eapply Rle_trans; [apply Rmax_r|apply Rmax_l].
  - apply Rmax_r.
Qed.
Lemma target_again l : Rmax (Rmax (cliff b h l) (T l)) (streamline n dx c z 0 (b - 1) l (T l)) = T l.
Proof.
  destruct (target_bed l) as (A & B & C). rewrite (Rmax_right (cliff b h l)) by exact A. apply Rmax_left. unfold streamline in *. cbv zeta in *. destruct (_ && _)%bool; [exact C|apply Rle_refl].
Qed.
Lemma target_hi l : (l <= b)%nat -> T l = h.
Proof. intros H. unfold T. apply (c116_cliff n b dx c mu h l); trivial. lia. Qed.
Lemma fall_range x : 0 <= x <= 1 -> 0 <= fall x <= 1.
Proof. intros H. unfold fall. split; [replace (1 - 3 * x ^ 2 + 2 * x ^ 3) with ((1 - x) ^ 2 * (1 + 2 * x)) by ring; apply Rmult_le_pos; [apply pow2_ge_0|lra] | assert (0 <= x ^ 2 * (3 - 2 * x)) by (apply Rmult_le_pos; [apply pow2_ge_0|lra]); lra]. Qed.
Lemma fall_down x y : 0 <= x -> x <= y -> y <= 1 -> fall y <= fall x.
Proof.
  intros H0 H1 H2. unfold fall. replace (1 - 3 * x ^ 2 + 2 * x ^ 3) with (1 - 3 * y ^ 2 + 2 * y ^ 3 + (y - x) * (3 * (x + y) - 2 * (x ^ 2 + x * y + y ^ 2))) by ring.
  assert (0 <= (y - x) * (3 * (x + y) - 2 * (x ^ 2 + x * y + y ^ 2))); [|lra]. apply Rmult_le_pos; [lra|]. cbn. nra.
Qed.
Lemma target_lo l : (b < l)%nat -> (l + 1 < n)%nat -> 0 <= T l <= h.
Proof.
  intros H H1. pose proof (c116_cliff n b dx c mu h l Hb Hn Hdx Hc Hh Hmu H1) as (_ & A & B). pose proof (reach_pos c h) as P. pose proof (target_bed l) as (_ & K & _). split; [exact K|].
  unfold T in *. destruct (Rle_dec ((INR l + 1 - INR b) * dx) (reach c h)) as [L|L]; [|rewrite B by (exact H || lra); lra]. rewrite A by assumption.
  assert (INR b <= INR l) by (apply le_INR; lia). assert (0 <= (INR l + 1 - INR b) * dx / reach c h <= 1).
  { split; [apply Rmult_le_pos; [nra | left; apply Rinv_0_lt_compat; exact P]|]. apply (Rmult_le_reg_r (reach c h)); [exact P|]. unfold Rdiv. rewrite Rmult_assoc, Rinv_l by lra. lra. }
  pose proof (fall_range _ H2). nra.
Qed.
Lemma reach_more h1 : 0 <= h1 <= h -> reach c h1 <= reach c h.
Proof.
  intros H. unfold reach. apply Rle_min_compat_r, Rle_max_compat_r. apply Rmult_le_compat_r; [left; apply Rinv_0_lt_compat; lra|]. lra.
Qed.
(** A lower streamline from the same brink stays below. *)
Lemma lower_streamline h1 l : 0 <= h1 <= h -> (b - 1 <= l)%nat -> (l < Nat.min (b - 1 + Z.to_nat (Int_part (reach c h1 / dx))) (n - 1))%nat ->
  cubic h1 0 (reach c h1) h1 (INR l * dx - INR (b - 1) * dx) <= T l.
Proof.
  intros H1 H2 H3. pose proof (reach_pos c h) as P. assert (P1 : 0 < reach c h1). { unfold reach. apply Rmin_glb_lt; [|lra]. apply (Rlt_le_trans _ (1 / 10)); [lra | apply Rmax_r]. }
  pose proof (reach_more h1 H1) as M. assert (Q : INR (Z.to_nat (Int_part (reach c h1 / dx))) <= reach c h1 / dx).
  { pose proof (int_part_bounds (reach c h1 / dx)) as [K1 K2]. assert (0 <= reach c h1 / dx) by (apply Rlt_le, Rdiv_lt_0_compat; lra).
    assert (0 <= Int_part (reach c h1 / dx))%Z. { apply Z.lt_succ_r. apply lt_IZR. rewrite succ_IZR. lra. } rewrite INR_IZR_INZ, Z2Nat.id by lia. exact K1. }
  assert (J : (l - (b - 1) <= Z.to_nat (Int_part (reach c h1 / dx)))%nat) by lia. apply le_INR in J. rewrite minus_INR in J by lia.
  set (x := INR l * dx - INR (b - 1) * dx). assert (X0 : 0 <= x). { unfold x. assert (INR (b - 1) <= INR l) by (apply le_INR; exact H2). nra. }
  assert (X1 : x <= reach c h1). { unfold x. assert (G : INR l - INR (b - 1) <= reach c h1 / dx) by lra. apply (Rmult_le_compat_r dx) in G; [|lra]. replace (reach c h1 / dx * dx) with (reach c h1) in G by (field; lra). lra. }
  replace (cubic h1 0 (reach c h1) h1 x) with (h1 * fall (x / reach c h1)) by (unfold cubic, fall; field; lra).
  assert (F1 : 0 <= x / reach c h1 <= 1). { split; [apply Rmult_le_pos; [exact X0 | left; apply Rinv_0_lt_compat; exact P1]|]. apply (Rmult_le_reg_r (reach c h1)); [exact P1|]. unfold Rdiv. rewrite Rmult_assoc, Rinv_l by lra. lra. }
  pose proof (fall_range _ F1) as F2. destruct (le_lt_dec l b) as [L|L].
  - rewrite target_hi by exact L. nra.
  - pose proof (c116_cliff n b dx c mu h l Hb Hn Hdx Hc Hh Hmu ltac:(lia)) as (_ & A & _). assert (X : (INR l + 1 - INR b) * dx = x). { unfold x. rewrite minus_INR by lia. simpl (INR 1). ring. }
    unfold T. rewrite A by (try exact L; rewrite X; lra). rewrite X. assert (D : x / reach c h <= x / reach c h1). { unfold Rdiv. apply Rmult_le_compat_l; [exact X0|]. apply Rinv_le_contravar; lra. }
    assert (F : fall (x / reach c h1) <= fall (x / reach c h)). { apply fall_down; [|exact D|apply F1]. apply Rmult_le_pos; [exact X0 | left; apply Rinv_0_lt_compat; exact P]. }
    nra.
Qed.
Lemma refine_cliff k j (s : field * field) : (forall l, snd s j l = T l) -> forall l, snd (refine n dx c xmax z k j (b - 1) s) j l = T l.
Proof.
  intros H l. unfold refine. cbv zeta. set (v := filtered n dx xmax k (snd s j)). assert (V : forall i, (i < n)%nat -> v i = damping dx xmax k * T i).
  { intros i Hi. unfold v. rewrite filtered_scaled by exact Hi. rewrite H. reflexivity. }
  assert (Bk : back3 n v (b - 1) = v (b - 1)%nat). { unfold back3. destruct (Nat.ltb_spec (b - 1) 3); [lia|]. rewrite !V, !target_hi by lia. reflexivity. }
  assert (Br : brink_of n dx z j (b - 1) v = v (b - 1)%nat - v (b + 4)%nat).
  { unfold brink_of. replace (n - (b - 1 + 5))%nat with (S (n - (b - 1 + 5) - 1)) by lia. cbn [seq filter]. unfold z. rewrite (cliff_level n b dx h Hb Hn Hdx) by lia. unfold leb. destruct (Rle_dec 0 0); [|lra].
    replace (b - 1 + 5)%nat with (b + 4)%nat by lia. reflexivity. }
  rewrite Bk, Br. replace ((v (b - 1)%nat - v (b - 1)%nat) / (3 * dx)) with 0 by (field; lra). set (h1 := v (b - 1)%nat - v (b + 4)%nat).
  assert (H1 : 0 <= h1 <= h).
  { unfold h1. rewrite !V by lia. rewrite target_hi by lia. pose proof (damping_pos dx xmax k). pose proof (damping_le dx xmax k). pose proof (target_bed (b + 4)) as (_ & K & _).
    assert (T (b + 4)%nat <= h). { destruct (le_lt_dec n (b + 4 + 1)) as [E|E]; [|apply target_lo; lia]. unfold T. rewrite (c116_cliff_in n b dx c mu h Hb Hn Hdx Hc Hh Hmu) by lia.
      destruct (Nat.leb_spec (b + 4) b); [lia|]. unfold i_max. destruct (Nat.ltb_spec (b + 4) (Nat.min (b - 1 + Z.to_nat (Int_part (reach c h / dx)) + 1) (n - 1))); [lia|lra]. }
    split; nra. }
  assert (E : reattach c h1 0 = reach c h1). { unfold reattach, reach. do 2 f_equal. field. lra. } rewrite E. cbn [snd]. unfold raise_row. rewrite set_row_same, set_row_same, H.
  destruct (target_bed l) as (A & B & _). change (z j l) with (cliff b h l). rewrite (Rmax_right (cliff b h l)) by exact A. apply Rmax_left.
  destruct (Nat.leb_spec (b - 1) l) as [L|L]; [|exact B]. destruct (Nat.ltb_spec l (Nat.min (b - 1 + Z.to_nat (Int_part (reach c h1 / dx))) (n - 1))) as [L2|L2]; [|exact B]. cbn [andb].
  apply lower_streamline; assumption.
Qed.
Lemma iter_step {A} it (f : A -> A) x : Nat.iter (S it) f x = f (Nat.iter it f x).
Proof. reflexivity. Qed.
Lemma refine_others k j i s r : r <> j -> snd (refine n dx c xmax z k j i s) r = snd s r.
Proof. intros H. unfold refine. cbn [snd]. unfold raise_row. apply set_row_other. exact H. Qed.
Definition blank_or_done (s : field * field) (r : nat) : Prop := (forall l, snd s r l = 0) \/ (forall l, snd s r l = T l).
Lemma bubble_cliff it k j s s' : good s -> (forall r, blank_or_done s r) -> one_bubble n dx c xmax z it k j (b - 1) s = Ok s' ->
  good s' /\ (forall l, snd s' j l = T l) /\ forall r, r <> j -> forall l, snd s' r l = snd s r l.
Proof.
  intros G I H. apply bubble_split in H as (s1 & H & ->). destruct (plain_value n dx c xmax z _ _ _ _ _ G H) as [G1 V]. split; [apply iter_good; exact G1|].
  assert (A : forall l, snd s1 j l = T l).
  { intros l. rewrite V, Nat.eqb_refl. change (z j l) with (cliff b h l). change (streamline n dx c z j (b - 1) l) with (streamline n dx c z 0 (b - 1) l).
    destruct (I j) as [I1|I1]; rewrite I1; [symmetry; apply target | apply target_again]. }
  assert (O : forall r, r <> j -> forall l, snd s1 r l = snd s r l). { intros r N l. rewrite V. apply Nat.eqb_neq in N. rewrite N. reflexivity. }
  clear - A O Hb Hn Hdx Hc Hh Hmu. induction it as [|it [IA IO]]; [split; assumption|]. rewrite iter_step. split.
  - apply refine_cliff. exact IA.
  - intros r N l. rewrite refine_others by exact N. apply IO. exact N.
Qed.
Lemma walk_cliff it js : forall k s s', good s -> (forall r, blank_or_done s r) -> walk n dx c xmax z it k (map (fun j => (j, (b - 1)%nat)) js) s = Ok s' ->
  forall r, In r js \/ (forall l, snd s r l = T l) -> forall l, snd s' r l = T l.
Proof.
  induction js as [|j js IH]; intros k s s' G I H r Hr l; cbn [map walk] in H.
  - injection H as <-. destruct Hr as [[]|Hr]. apply Hr.
  - destruct (one_bubble n dx c xmax z it k j (b - 1) s) as [s1|] eqn:E; cbn [bind] in H; [|discriminate]. destruct (bubble_cliff it k j s s1 G I E) as (G1 & A & O).
    assert (I1 : forall q, blank_or_done s1 q). { intros q. destruct (Nat.eq_dec q j) as [->|N]; [right; exact A|]. destruct (I q) as [K|K]; [left|right]; intros x; rewrite O by exact N; apply K. }
    refine (IH _ _ _ G1 I1 H r _ l). destruct (Nat.eq_dec r j) as [->|N]; [right; exact A|]. destruct Hr as [[->|Hr]|Hr]; [congruence | left; exact Hr|]. right. intros x. rewrite O by exact N. apply Hr.
Qed.
Lemma places_cliff : places m n dx mu z = map (fun j => (j, (b - 1)%nat)) (seq 0 m).
Proof.
  unfold places, z. rewrite (cliff_bubbles n b dx mu h Hb Hn Hdx Hh Hmu). cbn [map]. generalize (seq 0 m). induction l as [|j l IH]; [reflexivity|]. cbn. rewrite IH. reflexivity.
Qed.
Lemma surface_cliff_in it : (m <= n)%nat -> exists s, separation_surface m n dx c mu xmax z it false = Ok s /\ forall r l, (r < m)%nat -> s r l = T l.
Proof.
  intros H. destruct (surface_ok m n dx c mu xmax z it false H) as [s Hs]. exists s. split; [exact Hs|]. intros r l Hr. unfold separation_surface in Hs. rewrite places_cliff in Hs.
  destruct (walk _ _ _ _ _ _ _ _ _) as [t|] eqn:E; cbn [bind] in Hs; [|discriminate]. injection Hs as <-.
  assert (G : good (fun _ _ => 0, fun _ _ => 0)) by (intros x y; cbn; lra).
  rewrite (walk_cliff it (seq 0 m) _ _ _ G (fun q => or_introl (fun x => eq_refl)) E r); [|left; apply in_seq; lia].
  destruct (target_bed l) as (A & _). change (z r l) with (cliff b h l). destruct (Rlt_dec _ _); [lra|reflexivity].
Qed.
End Cliff.
Lemma surface_cliff : forall m n b dx c mu h xmax it, (4 <= b)%nat -> (b + 4 < n)%nat -> 0 < dx -> 0 < c -> 0 < h -> mu < degrees (atan (h / (2 * dx))) -> (m <= n)%nat ->
  exists s s0, separation_surface m n dx c mu xmax (fun _ => cliff b h) it false = Ok s /\ separation_surface m n dx c mu xmax (fun _ => cliff b h) 0 false = Ok s0 /\ forall r l, (r < m)%nat -> s r l = s0 r l.
Proof.
  intros m n b dx c mu h xmax it Hb Hn Hx Hc Hh Hmu Hm. destruct (surface_cliff_in m n b dx c mu h xmax Hb Hn Hx Hc Hh Hmu it Hm) as (s & E & V).
  destruct (surface_cliff_in m n b dx c mu h xmax Hb Hn Hx Hc Hh Hmu 0 Hm) as (s0 & E0 & V0). exists s, s0. split; [exact E|]. split; [exact E0|]. intros r l Hr. rewrite V, V0 by exact Hr. reflexivity.
Qed.
