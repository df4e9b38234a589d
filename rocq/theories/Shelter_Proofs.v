(** Lemmas about sheltering. *)
From Coq Require Import Reals Lra Lia.
From Verif Require Import Base Wind_Model Wind_Spec Wind_Proofs Wind_Shear Shelter_Model Shelter_Spec.
Open Scope R_scope.

(** ** Okin *)
Lemma multiple_range a c h d : okin_ok a c -> 0 < h -> a <= multiple a c h d <= 1.
Proof.
  intros [A C] H. unfold multiple. destruct (Rle_dec 0 d); [|lra]. destruct (Rlt_dec (d / h) 20); [|lra].
  assert (E : 0 < exp (- d * c / h) <= 1).
  { split; [apply exp_pos|]. rewrite <- exp_0. assert (Q : - d * c / h <= 0).
    { unfold Rdiv. assert (0 <= d * c * / h) by (apply Rmult_le_pos; [apply Rmult_le_pos; auto|left; apply Rinv_0_lt_compat; auto]). lra. }
    destruct Q as [Q|Q]; [left; apply exp_increasing; auto|rewrite Q; lra]. }
  set (e := exp (- d * c / h)) in *. assert (0 <= (1 - a) * (1 - e)) by (apply Rmult_le_pos; lra). assert (0 <= (1 - a) * e) by (apply Rmult_le_pos; lra). lra.
Qed.
Lemma reduction_range a c h d : 0 <= reduction a c h d <= 1.
Proof.
  unfold reduction. set (r := 1 - multiple a c h d). destruct (Rlt_dec d 0); [lra|]. destruct (Rlt_dec r (1 / 100000)); destruct (Rlt_dec 1 _); lra.
Qed.
Lemma reduction_upwind a c h d : d < 0 -> reduction a c h d = 0.
Proof. intros D. unfold reduction. destruct (Rlt_dec d 0); [auto|contradiction]. Qed.
Lemma rsum_nonneg l : (forall x, In x l -> 0 <= x) -> 0 <= rsum l.
Proof.
  intros H. induction l as [|x l IH]; [cbn; unfold rsum; cbn; lra|]. unfold rsum in *. cbn [fold_right]. assert (0 <= x) by (apply H; left; auto).
  assert (0 <= fold_right Rplus 0 l) by (apply IH; intros; apply H; right; auto). lra.
Qed.
Lemma rsum_map_le {A} (f g : A -> R) l : (forall x, In x l -> f x <= g x) -> rsum (map f l) <= rsum (map g l).
Proof.
  intros H. induction l as [|x l IH]; [cbn; lra|]. unfold rsum in *. cbn [map fold_right]. assert (f x <= g x) by (apply H; left; auto).
  assert (fold_right Rplus 0 (map f l) <= fold_right Rplus 0 (map g l)) by (apply IH; intros; apply H; right; auto). lra.
Qed.
Lemma total_range a c left n x h j : 0 <= total_reduction a c left n x h j <= 1.
Proof.
  unfold total_reduction. set (r := rsum _). assert (R : 0 <= r).
  { unfold r. apply rsum_nonneg. intros v V. apply in_map_iff in V. destruct V as [i [<- _]]. destruct (Rlt_dec 0 (h i)); [apply reduction_range|lra]. }
  destruct (Rlt_dec 1 r); lra.
Qed.
Lemma total_none a c left n x h j : (forall i, (i < n)%nat -> 0 < h i -> behind left x i j < 0) -> total_reduction a c left n x h j = 0.
Proof.
  intros H. unfold total_reduction. assert (E : rsum (map (fun i => if Rlt_dec 0 (h i) then reduction a c (h i) (behind left x i j) else 0) (seq 0 n)) = 0).
  { apply rsum_zero. intros v V. apply in_map_iff in V. destruct V as [i [<- I]]. apply in_seq in I. destruct (Rlt_dec 0 (h i)); [|auto]. apply reduction_upwind, H; auto. lia. }
  rewrite E. destruct (Rlt_dec 1 0); lra.
Qed.
Lemma unit_back cpt m : m <> 0 -> m * unit cpt m = cpt.
Proof. intros. unfold unit. destruct (Req_EM_T m 0); [contradiction|]. field. auto. Qed.
Lemma redirect_multiplied s f : (ustar s = 0 -> ustars s = 0 /\ ustarn s = 0) -> multiplied f s (redirect s (f * ustar s)).
Proof.
  intros C. unfold multiplied, redirect, with_velocity. cbn [ustar ustars ustarn]. destruct (Req_EM_T (ustar s) 0) as [E|E].
  - destruct (C E) as [A B]. rewrite E, A, B. unfold unit. destruct (Req_EM_T 0 0); [|contradiction]. repeat split; ring.
  - repeat split; auto; rewrite Rmult_assoc, unit_back; auto.
Qed.
Lemma coherent_still rho s : coherent rho s -> ustar s = 0 -> ustars s = 0 /\ ustarn s = 0.
Proof. intros [_ [_ [H _]]] E. rewrite E in H. apply hypot_zero; auto. Qed.
Lemma multiplied_coherent rho f s s' : 0 <= rho -> 0 <= f -> coherent rho s -> multiplied f s s' -> coherent rho (velocity_stress rho s').
Proof.
  intros P F [_ [_ [H _]]] [A [B C]]. apply velocity_stress_coherent; auto. rewrite A, B, C, hypot_scale, Rabs_right by lra. rewrite H. auto.
Qed.
Lemma velocity_stress_velocity rho f s s' : multiplied f s s' -> multiplied f s (velocity_stress rho s').
Proof. auto. Qed.
Lemma okin_shear rho a c left n x h s j : 0 <= rho -> coherent rho (s j) -> 1 / 100 <= ustar (s j) ->
  exists f, 0 < f <= 1 /\ multiplied f (s j) (velocity_stress rho (okin a c left n x h s j)) /\ coherent rho (velocity_stress rho (okin a c left n x h s j)) /\
    1 / 100 <= ustar (velocity_stress rho (okin a c left n x h s j)) /\ ((forall i, (i < n)%nat -> 0 < h i -> behind left x i j < 0) -> f = 1).
Proof.
  intros P C U. pose proof (total_range a c left n x h j) as T. set (t := total_reduction a c left n x h j) in *. set (u := ustar (s j)) in *.
  set (v := if Rlt_dec (u * (1 - t)) (1 / 100) then 1 / 100 else u * (1 - t)). assert (V1 : 1 / 100 <= v) by (unfold v; destruct (Rlt_dec _ _); lra).
  assert (V2 : v <= u). { unfold v. destruct (Rlt_dec _ _); [lra|]. assert (0 <= u * t) by (apply Rmult_le_pos; lra). lra. }
  exists (v / u). assert (F : 0 < v / u <= 1).
  { split; [unfold Rdiv; apply Rmult_lt_0_compat; [lra|apply Rinv_0_lt_compat; lra]|]. apply Rmult_le_reg_r with u; [lra|]. unfold Rdiv. rewrite Rmult_assoc, Rinv_l by lra. lra. }
  assert (M : multiplied (v / u) (s j) (okin a c left n x h s j)).
  { unfold okin. fold t u. fold v. replace v with (v / u * ustar (s j)) at 2 by (unfold u; field; unfold u in *; lra). apply redirect_multiplied. apply (coherent_still rho); auto. }
  split; auto. split; [apply velocity_stress_velocity; auto|]. split; [apply multiplied_coherent with (v / u) (s j); auto; lra|]. split.
  - cbn [ustar velocity_stress]. destruct M as [M _]. rewrite M. unfold u in *. replace (v / ustar (s j) * ustar (s j)) with v by (field; lra). auto.
  - intros H. assert (Z : t = 0) by (apply total_none; auto). unfold v. rewrite Z. replace (u * (1 - 0)) with u by ring. destruct (Rlt_dec u (1 / 100)); [lra|]. field. lra.
Qed.
Lemma turned_same d : -180 < d <= 180 -> turned_plants d = turned_fences d.
Proof.
  intros D. unfold turned_plants, turned_fences. cbv zeta. destruct (Rlt_dec (d + 180) 0); [lra|]. destruct (Rlt_dec (d + 180) 360).
  - destruct (Rlt_dec 360 (d + 180)); [lra|]. destruct (Rlt_dec 360 (d + 180 + 360)); lra.
  - destruct (Rlt_dec 360 (d + 180)); lra.
Qed.
Lemma left_side d : -180 < d <= 180 -> to_left (turned_plants d) = true <-> 0 <= d.
Proof.
  intros D. unfold turned_plants, to_left. cbv zeta. destruct (Rlt_dec (d + 180) 0); [lra|]. destruct (Rlt_dec 360 (d + 180)); [lra|].
  destruct (Rle_dec 180 (d + 180)); [destruct (Rle_dec (d + 180) 360)|]; split; intros; auto; try discriminate; lra.
Qed.
(** The component along x of a wind u from direction d (degrees), for a grid with orientation zero. *)
Lemma component_side u d : 0 < u -> -180 < d <= 180 -> (0 <= d -> - u * sin (radians d) <= 0) /\ (d < 0 -> 0 < - u * sin (radians d)).
Proof.
  intros U D. pose proof PI_RGT_0. split; intros E.
  - assert (0 <= sin (radians d)) by (apply sin_ge_0; unfold radians; [apply Rmult_le_pos; lra|]; apply Rle_trans with (1 * PI); [apply Rmult_le_compat_r; lra|lra]).
    assert (0 <= u * sin (radians d)) by (apply Rmult_le_pos; lra). lra.
  - assert (sin (radians d) < 0). { apply sin_lt_0_var; unfold radians.
      - assert (0 < (d + 180) * PI) by (apply Rmult_lt_0_compat; lra). unfold Rdiv in *. lra.
      - assert (0 < - d / 180 * PI) by (apply Rmult_lt_0_compat; lra). lra. }
    assert (0 < u * - sin (radians d)) by (apply Rmult_lt_0_compat; lra). lra.
Qed.
Lemma upwind_behind u d x h n j : 0 < u -> -180 < d <= 180 -> upwind n (- u * sin (radians d)) x h j -> forall i, (i < n)%nat -> 0 < h i -> behind (to_left (turned_plants d)) x i j < 0.
Proof.
  intros U D W i I H. pose proof (W i I H) as Q. destruct (component_side u d U D) as [A B]. unfold behind. destruct (to_left (turned_plants d)) eqn:L.
  - apply left_side in L; auto. specialize (A L). destruct (Rle_dec (x j - x i) 0) as [N|N]; [|lra]. exfalso.
    assert (0 <= - (x j - x i) * - (- u * sin (radians d))) by (apply Rmult_le_pos; lra). lra.
  - assert (N : d < 0). { destruct (Rlt_dec d 0); auto. exfalso. assert (X : to_left (turned_plants d) = true) by (apply left_side; auto; lra). congruence. }
    specialize (B N). destruct (Rlt_dec (x j - x i) 0); auto. exfalso. assert (0 <= (x j - x i) * (- u * sin (radians d))) by (apply Rmult_le_pos; lra). lra.
Qed.

(** ** Taller plants shelter more *)
Lemma exp_le a b : a <= b -> exp a <= exp b.
Proof. intros [H|H]; [left; apply exp_increasing; auto|rewrite H; lra]. Qed.
Lemma multiple_mono a c h1 h2 d : okin_ok a c -> 0 < h1 <= h2 -> multiple a c h2 d <= multiple a c h1 d.
Proof.
  intros O H. pose proof (multiple_range a c h2 d O ltac:(lra)) as R. destruct O as [A C]. unfold multiple in *. destruct (Rle_dec 0 d); [|lra].
  assert (L : d / h2 <= d / h1) by (unfold Rdiv; apply Rmult_le_compat_l; auto; apply Rinv_le_contravar; lra).
  destruct (Rlt_dec (d / h1) 20); [|lra]. destruct (Rlt_dec (d / h2) 20); [|lra]. apply Rplus_le_compat_l, Rmult_le_compat_l; [lra|].
  assert (exp (- d * c / h1) <= exp (- d * c / h2)); [|lra]. apply exp_le. assert (c * (d / h2) <= c * (d / h1)) by (apply Rmult_le_compat_l; auto). unfold Rdiv in *. lra.
Qed.
Lemma reduction_mono a c h1 h2 d : okin_ok a c -> 0 < h1 <= h2 -> reduction a c h1 d <= reduction a c h2 d.
Proof.
  intros O H. pose proof (multiple_mono a c h1 h2 d O H). unfold reduction. set (r1 := 1 - multiple a c h1 d). set (r2 := 1 - multiple a c h2 d). assert (r1 <= r2) by (unfold r1, r2; lra).
  destruct (Rlt_dec d 0); [lra|]. destruct (Rlt_dec r1 (1 / 100000)), (Rlt_dec r2 (1 / 100000)); repeat destruct (Rlt_dec 1 _); lra.
Qed.
Lemma total_mono a c left n x h1 h2 j : okin_ok a c -> (forall i, (i < n)%nat -> h1 i <= h2 i) -> total_reduction a c left n x h1 j <= total_reduction a c left n x h2 j.
Proof.
  intros O H. unfold total_reduction. set (r1 := rsum _). set (r2 := rsum _). assert (L : r1 <= r2).
  { unfold r1, r2. apply rsum_map_le. intros i I. apply in_seq in I. pose proof (H i ltac:(lia)). destruct (Rlt_dec 0 (h1 i)), (Rlt_dec 0 (h2 i)); try lra; [apply reduction_mono; auto; lra|apply reduction_range]. }
  destruct (Rlt_dec 1 r1), (Rlt_dec 1 r2); lra.
Qed.
Lemma okin_mono a c left n x h1 h2 s j : okin_ok a c -> (forall i, (i < n)%nat -> h1 i <= h2 i) -> 0 <= ustar (s j) -> ustar (okin a c left n x h2 s j) <= ustar (okin a c left n x h1 s j).
Proof.
  intros O H U. unfold okin, redirect, with_velocity. cbn [ustar]. pose proof (total_mono a c left n x h1 h2 j O H).
  assert (ustar (s j) * (1 - total_reduction a c left n x h2 j) <= ustar (s j) * (1 - total_reduction a c left n x h1 j)) by (apply Rmult_le_compat_l; lra).
  destruct (Rlt_dec _ _); destruct (Rlt_dec _ _); lra.
Qed.

(** ** Raupach *)
Lemma weight_pos sigma k : 0 < weight sigma k.
Proof. apply exp_pos. Qed.
Lemma offsets_nonempty sigma : exists k l, offsets sigma = k :: l.
Proof. unfold offsets. replace (2 * radius sigma + 1)%nat with (S (2 * radius sigma)) by lia. cbn [seq map]. eauto. Qed.
Lemma weights_pos sigma : 0 < rsum (map (weight sigma) (offsets sigma)).
Proof.
  destruct (offsets_nonempty sigma) as [k [l ->]]. unfold rsum. cbn [map fold_right]. pose proof (weight_pos sigma k).
  assert (0 <= rsum (map (weight sigma) l)) by (apply rsum_nonneg; intros v V; apply in_map_iff in V; destruct V as [i [<- _]]; left; apply weight_pos). unfold rsum in *. lra.
Qed.
Lemma reflected_below n k : (0 < n)%nat -> (reflected n k < n)%nat.
Proof.
  intros N. unfold reflected. pose proof (Z.mod_pos_bound k (2 * Z.of_nat n) ltac:(lia)). destruct (Nat.ltb_spec (Z.to_nat (k mod (2 * Z.of_nat n))) n); lia.
Qed.
Lemma smooth_le sigma n u v i : (0 < n)%nat -> (forall j, (j < n)%nat -> u j <= v j) -> smooth sigma n u i <= smooth sigma n v i.
Proof.
  intros N H. unfold smooth. pose proof (weights_pos sigma). unfold Rdiv. apply Rmult_le_compat_r; [left; apply Rinv_0_lt_compat; auto|].
  apply rsum_map_le. intros k K. apply Rmult_le_compat_l; [left; apply weight_pos|]. apply H, reflected_below; auto.
Qed.
Lemma rsum_map_scale {A} (f : A -> R) c l : rsum (map (fun x => f x * c) l) = rsum (map f l) * c.
Proof. induction l as [|x l IH]; unfold rsum in *; cbn; [ring|]. rewrite IH. ring. Qed.
Lemma smooth_const sigma n v c i : (0 < n)%nat -> (forall j, (j < n)%nat -> v j = c) -> smooth sigma n v i = c.
Proof.
  intros N H. unfold smooth. pose proof (weights_pos sigma). rewrite (map_ext _ (fun k => weight sigma k * c)) by (intros k; rewrite H; auto; apply reflected_below; auto).
  rewrite rsum_map_scale. field. lra.
Qed.
Lemma smooth_bounds sigma n v lo hi i : (0 < n)%nat -> (forall j, (j < n)%nat -> lo <= v j <= hi) -> lo <= smooth sigma n v i <= hi.
Proof.
  intros N H. split.
  - rewrite <- (smooth_const sigma n (fun _ => lo) lo i N) by auto. apply smooth_le; auto. intros; apply H; auto.
  - rewrite <- (smooth_const sigma n (fun _ => hi) hi i N) by auto. apply smooth_le; auto. intros; apply H; auto.
Qed.
Lemma smooth_pos sigma n v i : (0 < n)%nat -> (forall j, (j < n)%nat -> 0 < v j) -> 0 < smooth sigma n v i.
Proof.
  intros N H. unfold smooth. pose proof (weights_pos sigma). unfold Rdiv. apply Rmult_lt_0_compat; [|apply Rinv_0_lt_compat; auto].
  destruct (offsets_nonempty sigma) as [k [l ->]]. unfold rsum. cbn [map fold_right].
  assert (A : forall k, 0 < weight sigma k * v (reflected n (Z.of_nat i + k)%Z)) by (intros; apply Rmult_lt_0_compat; [apply weight_pos|apply H, reflected_below; auto]).
  pose proof (A k). assert (0 <= rsum (map (fun k => weight sigma k * v (reflected n (Z.of_nat i + k)%Z)) l)) by (apply rsum_nonneg; intros w W; apply in_map_iff in W; destruct W as [m [<- _]]; left; apply A).
  unfold rsum in *. lra.
Qed.
Lemma bare_range roughness cover i j : 0 <= roughness -> 0 <= cover i j -> 0 < bare_fraction roughness cover i j <= 1.
Proof.
  intros R C. unfold bare_fraction. assert (0 <= roughness * cover i j) by (apply Rmult_le_pos; auto). assert (S : 1 <= sqrt (1 + roughness * cover i j)) by (apply Rle_trans with (sqrt 1); [rewrite sqrt_1; lra|apply sqrt_le_1_alt; lra]).
  split; [unfold Rdiv; rewrite Rmult_1_l; apply Rinv_0_lt_compat; lra|]. unfold Rdiv. rewrite Rmult_1_l. apply Rle_trans with (/ 1); [apply Rinv_le_contravar; lra|rewrite Rinv_1; lra].
Qed.
Lemma vegfac_range roughness sigma ny nx cover i j : (0 < ny)%nat -> (0 < nx)%nat -> 0 <= roughness -> (forall i j, (i < ny)%nat -> (j < nx)%nat -> 0 <= cover i j) ->
  (i < ny)%nat -> (j < nx)%nat -> 0 < vegfac roughness sigma ny nx cover i j <= 1.
Proof.
  intros NY NX R C I J. unfold vegfac, gaussian_filter. split.
  - apply smooth_pos; auto. intros j' J'. apply smooth_pos; auto. intros i' I'. apply bare_range; auto.
  - apply (smooth_bounds sigma nx _ 0 1); auto. intros j' J'. apply (smooth_bounds sigma ny _ 0 1); auto. intros i' I'. pose proof (bare_range roughness cover i' j' R (C i' j' I' J')). lra.
Qed.
Lemma vegfac_bare roughness sigma ny nx cover i j : (0 < ny)%nat -> (0 < nx)%nat -> (forall i j, (i < ny)%nat -> (j < nx)%nat -> cover i j = 0) -> vegfac roughness sigma ny nx cover i j = 1.
Proof.
  intros NY NX C. unfold vegfac, gaussian_filter. apply smooth_const; auto. intros j' J'. apply smooth_const; auto. intros i' I'. unfold bare_fraction. rewrite C by auto.
  replace (1 + roughness * 0) with 1 by ring. rewrite sqrt_1. field.
Qed.
Lemma vegfac_mono roughness sigma ny nx c1 c2 i j : (0 < ny)%nat -> (0 < nx)%nat -> 0 <= roughness -> (forall i j, (i < ny)%nat -> (j < nx)%nat -> 0 <= c1 i j <= c2 i j) ->
  vegfac roughness sigma ny nx c2 i j <= vegfac roughness sigma ny nx c1 i j.
Proof.
  intros NY NX R C. unfold vegfac, gaussian_filter. apply smooth_le; auto. intros j' J'. apply smooth_le; auto. intros i' I'. unfold bare_fraction.
  destruct (C i' j' I' J') as [A B]. assert (0 <= roughness * c1 i' j') by (apply Rmult_le_pos; auto). assert (roughness * c1 i' j' <= roughness * c2 i' j') by (apply Rmult_le_compat_l; auto).
  unfold Rdiv. apply Rmult_le_compat_l; [lra|]. apply Rinv_le_contravar; [apply sqrt_lt_R0; lra|apply sqrt_le_1_alt; lra].
Qed.
Lemma raupach_shear rho roughness sigma ny nx cover s i j : 0 <= rho -> 0 <= roughness -> (forall i j, (i < ny)%nat -> (j < nx)%nat -> 0 <= cover i j) -> (i < ny)%nat -> (j < nx)%nat -> coherent rho (s i j) ->
  exists f, 0 < f <= 1 /\ multiplied f (s i j) (vegshear_raupach rho roughness sigma ny nx cover s i j) /\ coherent rho (vegshear_raupach rho roughness sigma ny nx cover s i j) /\
    ((forall i j, (i < ny)%nat -> (j < nx)%nat -> cover i j = 0) -> f = 1).
Proof.
  intros P R C I J CO. exists (vegfac roughness sigma ny nx cover i j). pose proof (vegfac_range roughness sigma ny nx cover i j ltac:(lia) ltac:(lia) R C I J) as F.
  assert (M : multiplied (vegfac roughness sigma ny nx cover i j) (s i j) (redirect (s i j) (ustar (s i j) * vegfac roughness sigma ny nx cover i j))).
  { rewrite Rmult_comm. apply redirect_multiplied, (coherent_still rho); auto. }
  split; auto. split; [apply velocity_stress_velocity; auto|]. split; [apply multiplied_coherent with (vegfac roughness sigma ny nx cover i j) (s i j); auto; lra|]. apply vegfac_bare; lia.
Qed.

(** ** Shelter ends *)
Lemma reduction_decays a c h d1 d2 : okin_ok a c -> 0 < h -> 0 <= d1 <= d2 -> reduction a c h d2 <= reduction a c h d1.
Proof.
  intros O H D. assert (M : multiple a c h d1 <= multiple a c h d2).
  { pose proof (multiple_range a c h d1 O H) as R. destruct O as [A C]. unfold multiple in *. destruct (Rle_dec 0 d1); [|lra]. destruct (Rle_dec 0 d2); [|lra].
    assert (I : 0 < / h) by (apply Rinv_0_lt_compat; auto). assert (L : d1 / h <= d2 / h) by (unfold Rdiv; apply Rmult_le_compat_r; lra).
    destruct (Rlt_dec (d2 / h) 20); [|destruct (Rlt_dec (d1 / h) 20); lra]. destruct (Rlt_dec (d1 / h) 20); [|lra]. apply Rplus_le_compat_l, Rmult_le_compat_l; [lra|].
    assert (exp (- d2 * c / h) <= exp (- d1 * c / h)); [|lra]. apply exp_le. assert (c * (d1 / h) <= c * (d2 / h)) by (apply Rmult_le_compat_l; auto). unfold Rdiv in *. lra. }
  unfold reduction. set (r1 := 1 - multiple a c h d1) in *. set (r2 := 1 - multiple a c h d2) in *. assert (r2 <= r1) by (unfold r1, r2; lra).
  destruct (Rlt_dec d1 0); [lra|]. destruct (Rlt_dec d2 0); [lra|]. destruct (Rlt_dec r1 (1 / 100000)), (Rlt_dec r2 (1 / 100000)); repeat destruct (Rlt_dec 1 _); lra.
Qed.
Lemma reduction_ends a c h d : 0 < h -> 20 * h <= d -> reduction a c h d = 0.
Proof.
  intros H D. unfold reduction, multiple. assert (20 <= d / h) by (apply Rmult_le_reg_r with h; auto; unfold Rdiv; rewrite Rmult_assoc, Rinv_l; lra).
  destruct (Rlt_dec d 0); auto. destruct (Rle_dec 0 d); [|lra]. destruct (Rlt_dec (d / h) 20); [lra|]. destruct (Rlt_dec (1 - 1) (1 / 100000)); [|lra]. destruct (Rlt_dec 1 0); lra.
Qed.
Lemma rsum_app l l' : rsum (l ++ l') = rsum l + rsum l'.
Proof. induction l as [|x l IH]; unfold rsum in *; cbn; [ring|]. rewrite IH. ring. Qed.
Lemma rsum_single (f : nat -> R) n i : (i < n)%nat -> (forall k, (k < n)%nat -> k <> i -> f k = 0) -> rsum (map f (seq 0 n)) = f i.
Proof.
  intros I H. replace n with (i + (1 + (n - i - 1)))%nat by lia. rewrite seq_app, map_app, rsum_app, seq_app, map_app, rsum_app.
  rewrite (rsum_zero (map f (seq 0 i))) by (intros x X; apply in_map_iff in X; destruct X as [m [<- M]]; apply in_seq in M; apply H; lia).
  rewrite (rsum_zero (map f (seq (0 + i + 1) (n - i - 1)))) by (intros x X; apply in_map_iff in X; destruct X as [m [<- M]]; apply in_seq in M; apply H; lia).
  unfold rsum. cbn. ring.
Qed.
Lemma total_single a c left n x h i j : (i < n)%nat -> 0 < h i -> (forall k, (k < n)%nat -> k <> i -> h k <= 0) -> total_reduction a c left n x h j = reduction a c (h i) (behind left x i j).
Proof.
  intros I H O. unfold total_reduction. rewrite (rsum_single _ n i I).
  - destruct (Rlt_dec 0 (h i)); [|contradiction]. pose proof (reduction_range a c (h i) (behind left x i j)). destruct (Rlt_dec 1 _); lra.
  - intros k K N. pose proof (O k K N). destruct (Rlt_dec 0 (h k)); lra.
Qed.
(** At a plant at most the initial share remains. *)
Lemma reduction_here a c h : okin_ok a c -> 0 < h -> 1 - a - 1 / 100000 <= reduction a c h 0.
Proof.
  intros [A C] H. unfold reduction, multiple. destruct (Rle_dec 0 0); [|lra]. replace (0 / h) with 0 by (field; lra). destruct (Rlt_dec 0 20); [|lra].
  replace (- 0 * c / h) with 0 by (field; lra). rewrite exp_0. destruct (Rlt_dec 0 0); [lra|]. destruct (Rlt_dec _ (1 / 100000)); destruct (Rlt_dec 1 _); lra.
Qed.
Lemma rsum_term {A} (f : A -> R) l i : In i l -> (forall x, In x l -> 0 <= f x) -> f i <= rsum (map f l).
Proof.
  induction l as [|x l IH]; [intros []|]. intros I H. unfold rsum in *. cbn [map fold_right]. assert (P : 0 <= rsum (map f l)) by (apply rsum_nonneg; intros v V; apply in_map_iff in V; destruct V as [m [<- M]]; apply H; right; auto).
  unfold rsum in P. destruct I as [->|I]; [lra|]. assert (0 <= f x) by (apply H; left; auto). assert (f i <= fold_right Rplus 0 (map f l)) by (apply IH; auto; intros; apply H; right; auto). lra.
Qed.
Lemma total_here a c left n x h j : okin_ok a c -> (j < n)%nat -> 0 < h j -> 1 - a - 1 / 100000 <= total_reduction a c left n x h j.
Proof.
  intros O J H. pose proof (reduction_here a c (h j) O H) as L. unfold total_reduction.
  assert (T : (if Rlt_dec 0 (h j) then reduction a c (h j) (behind left x j j) else 0) <= rsum (map (fun i => if Rlt_dec 0 (h i) then reduction a c (h i) (behind left x i j) else 0) (seq 0 n))).
  { apply (rsum_term (fun i => if Rlt_dec 0 (h i) then reduction a c (h i) (behind left x i j) else 0)); [apply in_seq; lia|]. intros i _. destruct (Rlt_dec 0 (h i)); [apply reduction_range|lra]. }
  destruct (Rlt_dec 0 (h j)); [|contradiction]. replace (behind left x j j) with 0 in T by (unfold behind; destruct left; ring). destruct O. destruct (Rlt_dec 1 _); lra.
Qed.
(** Smoothing reaches the neighbours. *)
Lemma radius_08 : radius (8 / 10) = 3%nat.
Proof.
  unfold radius. assert (3 <= whole (4 * (8 / 10) + 1 / 2))%nat by (apply whole_ge; cbn; lra). assert (whole (4 * (8 / 10) + 1 / 2) < 4)%nat; [|lia].
  unfold whole. destruct (base_Int_part (4 * (8 / 10) + 1 / 2)) as [B _]. assert (Int_part (4 * (8 / 10) + 1 / 2) < 4)%Z; [|lia]. apply lt_IZR. lra.
Qed.
Lemma smooth_below sigma n v i k0 : (0 < n)%nat -> (forall j, (j < n)%nat -> v j <= 1) -> In k0 (offsets sigma) -> v (reflected n (Z.of_nat i + k0)) < 1 -> smooth sigma n v i < 1.
Proof.
  intros N H K L. unfold smooth. pose proof (weights_pos sigma) as P. apply Rmult_lt_reg_r with (rsum (map (weight sigma) (offsets sigma))); auto.
  unfold Rdiv. rewrite Rmult_assoc, Rinv_l, Rmult_1_r, Rmult_1_l by lra. apply in_split in K. destruct K as [l1 [l2 E]]. rewrite E.
  rewrite !map_app, !rsum_app. cbn [map]. unfold rsum at 2 4. cbn [fold_right]. fold (rsum (map (weight sigma) l2)). fold (rsum (map (fun k => weight sigma k * v (reflected n (Z.of_nat i + k))) l2)).
  assert (A : forall l, rsum (map (fun k => weight sigma k * v (reflected n (Z.of_nat i + k))) l) <= rsum (map (weight sigma) l)).
  { intros l. apply rsum_map_le. intros k _. pose proof (weight_pos sigma k). assert (v (reflected n (Z.of_nat i + k)) <= 1) by (apply H, reflected_below; auto).
    rewrite <- (Rmult_1_r (weight sigma k)) at 2. apply Rmult_le_compat_l; lra. }
  pose proof (A l1). pose proof (A l2). pose proof (weight_pos sigma k0). assert (weight sigma k0 * v (reflected n (Z.of_nat i + k0)) < weight sigma k0 * 1) by (apply Rmult_lt_compat_l; auto). lra.
Qed.

(** ** The shelter of one plant in a row, Raupach *)
Lemma in_offsets sigma k : In k (offsets sigma) <-> (- Z.of_nat (radius sigma) <= k <= Z.of_nat (radius sigma))%Z.
Proof.
  unfold offsets. rewrite in_map_iff. split.
  - intros [m [<- M]]. apply in_seq in M. lia.
  - intros H. exists (Z.to_nat (k + Z.of_nat (radius sigma))). split; [lia|]. apply in_seq. lia.
Qed.
Lemma offsets_nodup sigma : NoDup (offsets sigma).
Proof. unfold offsets. apply FinFun.Injective_map_NoDup; [intros a b; lia|apply seq_NoDup]. Qed.
Lemma rsum_pick (f : Z -> R) k0 l : NoDup l -> rsum (map (fun k => if Z.eqb k k0 then f k else 0) l) = if in_dec Z.eq_dec k0 l then f k0 else 0.
Proof.
  induction 1 as [|k l N _ IH]; [reflexivity|]. unfold rsum in *. cbn [map fold_right]. rewrite IH. destruct (Z.eqb_spec k k0) as [->|E].
  - destruct (in_dec Z.eq_dec k0 l); [contradiction|]. destruct (in_dec Z.eq_dec k0 (k0 :: l)) as [|C]; [ring|destruct C; now left].
  - destruct (in_dec Z.eq_dec k0 l) as [i|i], (in_dec Z.eq_dec k0 (k :: l)) as [c|c]; try ring.
    + destruct c. now right.
    + destruct c; contradiction.
Qed.
Lemma rsum_map_minus {A} (f g : A -> R) l : rsum (map (fun k => f k - g k) l) = rsum (map f l) - rsum (map g l).
Proof. induction l as [|x l IH]; unfold rsum in *; cbn; [ring|]. rewrite IH. ring. Qed.
Lemma reflected_id n k : (0 <= k < Z.of_nat n)%Z -> reflected n k = Z.to_nat k.
Proof. intros K. unfold reflected. rewrite Z.mod_small by lia. destruct (Nat.ltb_spec (Z.to_nat k) n); lia. Qed.
Lemma smooth_spot sigma n v i0 d j : (forall m, (m < n)%nat -> v m = 1 - (if Nat.eqb m i0 then d else 0)) -> (radius sigma <= j)%nat -> (j + radius sigma < n)%nat ->
  smooth sigma n v j = 1 - (if in_dec Z.eq_dec (Z.of_nat i0 - Z.of_nat j)%Z (offsets sigma) then weight sigma (Z.of_nat i0 - Z.of_nat j) * d else 0) / rsum (map (weight sigma) (offsets sigma)).
Proof.
  intros V J N. unfold smooth. pose proof (weights_pos sigma) as W. set (k0 := (Z.of_nat i0 - Z.of_nat j)%Z).
  assert (E : map (fun k => weight sigma k * v (reflected n (Z.of_nat j + k)%Z)) (offsets sigma) = map (fun k => weight sigma k - (if Z.eqb k k0 then weight sigma k * d else 0)) (offsets sigma)).
  { apply map_ext_in. intros k K. apply in_offsets in K. rewrite reflected_id by lia. rewrite V by lia. destruct (Z.eqb_spec k k0), (Nat.eqb_spec (Z.to_nat (Z.of_nat j + k)) i0); subst k0; try lia; ring. }
  rewrite E, (rsum_map_minus (weight sigma)), (rsum_pick (fun k => weight sigma k * d)) by apply offsets_nodup. field. lra.
Qed.
Lemma weight_lt sigma k1 k2 : 0 < sigma -> (Z.abs k1 < Z.abs k2)%Z -> weight sigma k2 < weight sigma k1.
Proof.
  intros S K. unfold weight. apply exp_increasing. assert (A : (k1 * k1 < k2 * k2)%Z) by nia. apply IZR_lt in A. rewrite !mult_IZR in A.
  assert (0 < / (sigma * sigma)) by (apply Rinv_0_lt_compat; nra). unfold Rdiv. nra.
Qed.
(** The factor in a row with a single plant. *)
Lemma vegfac_spot roughness sigma nx cover i0 j : 0 < roughness -> (forall m, (m < nx)%nat -> m <> i0 -> cover 0%nat m = 0) -> (radius sigma <= j)%nat -> (j + radius sigma < nx)%nat ->
  vegfac roughness sigma 1 nx cover 0%nat j = 1 - (if in_dec Z.eq_dec (Z.of_nat i0 - Z.of_nat j)%Z (offsets sigma) then weight sigma (Z.of_nat i0 - Z.of_nat j) * (1 - bare_fraction roughness cover 0%nat i0) else 0) / rsum (map (weight sigma) (offsets sigma)).
Proof.
  intros R C J N. unfold vegfac, gaussian_filter. apply smooth_spot with (n := nx); auto. intros m M. 
  rewrite (smooth_const sigma 1 (fun i' => bare_fraction roughness cover i' m) (bare_fraction roughness cover 0%nat m) 0 ltac:(lia)).
  2: { intros j' Hj'. replace j' with 0%nat by lia. reflexivity. }
  destruct (Nat.eqb_spec m i0) as [->|E]; [ring|]. unfold bare_fraction. rewrite C by auto. replace (1 + roughness * 0) with 1 by ring. rewrite sqrt_1. field.
Qed.
Lemma bare_less roughness cover i j : 0 < roughness -> 0 < cover i j -> bare_fraction roughness cover i j < 1.
Proof.
  intros R C. unfold bare_fraction. assert (0 < roughness * cover i j) by (apply Rmult_lt_0_compat; auto). assert (S : 1 < sqrt (1 + roughness * cover i j)) by (rewrite <- sqrt_1 at 1; apply sqrt_lt_1_alt; lra).
  apply (Rmult_lt_reg_r (sqrt (1 + roughness * cover i j))); [lra|]. unfold Rdiv. rewrite Rmult_1_l, Rinv_l by lra. lra.
Qed.
Lemma c91_raupach : forall rho roughness sigma nx cover s i j k, 0 < roughness -> 0 < sigma -> 0 < cover 0%nat i -> (forall m, (m < nx)%nat -> m <> i -> cover 0%nat m = 0) ->
  (radius sigma <= j)%nat -> (j + radius sigma < nx)%nat -> (radius sigma <= k)%nat -> (k + radius sigma < nx)%nat -> 0 < ustar (s 0%nat j) -> ustar (s 0%nat j) = ustar (s 0%nat k) ->
  (Z.abs (Z.of_nat i - Z.of_nat j) < Z.abs (Z.of_nat i - Z.of_nat k))%Z ->
  ustar (vegshear_raupach rho roughness sigma 1 nx cover s 0%nat j) <= ustar (vegshear_raupach rho roughness sigma 1 nx cover s 0%nat k) /\
  ((Z.abs (Z.of_nat i - Z.of_nat j) <= Z.of_nat (radius sigma))%Z -> ustar (vegshear_raupach rho roughness sigma 1 nx cover s 0%nat j) < ustar (vegshear_raupach rho roughness sigma 1 nx cover s 0%nat k)) /\
  ((Z.of_nat (radius sigma) < Z.abs (Z.of_nat i - Z.of_nat j))%Z -> ustar (vegshear_raupach rho roughness sigma 1 nx cover s 0%nat j) = ustar (s 0%nat j)).
Proof.
  intros rho roughness sigma nx cover s i j k R S P C J1 J2 K1 K2 U E D.
  assert (F : forall m, ustar (vegshear_raupach rho roughness sigma 1 nx cover s 0%nat m) = ustar (s 0%nat m) * vegfac roughness sigma 1 nx cover 0%nat m) by (intros; unfold vegshear_raupach; reflexivity).
  rewrite !F, <- E. clear F. rewrite !(vegfac_spot roughness sigma nx cover i) by auto. pose proof (weights_pos sigma) as W. set (w := rsum _) in *. pose proof (bare_less roughness cover 0%nat i R P) as B. set (d := 1 - bare_fraction roughness cover 0%nat i).
  assert (0 < d) by (unfold d; lra). pose proof (weight_lt sigma _ _ S D) as L. pose proof (weight_pos sigma (Z.of_nat i - Z.of_nat k)). pose proof (weight_pos sigma (Z.of_nat i - Z.of_nat j)).
  set (a := weight sigma (Z.of_nat i - Z.of_nat j)) in *. set (b := weight sigma (Z.of_nat i - Z.of_nat k)) in *. assert (I : 0 < / w) by (apply Rinv_0_lt_compat; auto).
  assert (X : b * d < a * d) by nra. assert (Y : b * d * / w < a * d * / w) by (apply Rmult_lt_compat_r; auto). assert (Z0 : 0 < a * d * / w) by (apply Rmult_lt_0_compat; nra).
  unfold Rdiv. destruct (in_dec Z.eq_dec _ (offsets sigma)) as [i1|i1]; destruct (in_dec Z.eq_dec _ (offsets sigma)) as [i2|i2]; rewrite in_offsets in i1, i2; try lia;
    rewrite ?Rmult_0_l; repeat split; intros; try lia; try nra.
Qed.
