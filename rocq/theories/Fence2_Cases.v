(** Cases of the theorems about sand fences in two dimensions. *)
From Coq Require Import Reals Lra Lia Psatz ZArith.
From Verif Require Import Base Shear_Model Shear_Spec Shear_Proofs Shear_Interp Shear_Fourier Fence2_Model Fence2_Spec Fence2_Proofs Fence2_Uniform.
From Verif Require Shelter_Model Shelter_Spec.
Open Scope R_scope.

(** A grid of 5 by 30 m and fences of 1 m in column 2. *)
Definition beach : grid := unit_grid 5 30.
Definition fences : field := fun _ c => if Nat.eqb c 2 then 1 else 0.
Lemma bounded_case : (0 < rows beach)%nat /\ (0 < cols beach)%nat /\ between (rows beach) (cols beach) (fun r c => 1 / 4 + INR r / 20) (- (1 / 2)) (1 / 2) /\
  at_most (1 / 2) (fence_shear2d (32 / 100) (48 / 100) 1 225 beach fences (fun r c => 1 / 4 + INR r / 20) (fun _ _ => 0) 3 8).
Proof.
  assert (B : between (rows beach) (cols beach) (fun r c => 1 / 4 + INR r / 20) (- (1 / 2)) (1 / 2)).
  { intros [|[|[|[|[|r]]]]] c Hr Hc; cbn in Hr; try lia; simpl; lra. }
  split; [cbn; lia | split; [cbn; lia | split; [exact B|]]]. apply c120_bounded; [cbn; lia | cbn; lia | exact B].
Qed.
Lemma perpendicular_case : along 270 (fence_shear2d (32 / 100) (48 / 100) 1 270 (unit_grid 3 3) (fun _ _ => 0) (fun _ _ => 1 / 2) (fun _ _ => 0) 1 1) = 0 /\
  snd (fence_shear2d (32 / 100) (48 / 100) 1 270 (unit_grid 3 3) (fun _ _ => 0) (fun _ _ => 1 / 2) (fun _ _ => 0) 1 1) = 1 / 2.
Proof.
  rewrite (c120_uniform _ _ _ 0 0 1 270 _ _ _ (1 / 2) 1 1) by (auto using unit_cells; cbn; lra || lia). destruct west as [C S].
  unfold along, blows_to. cbn [fst snd]. rewrite C, S. split; lra.
Qed.
Lemma uniform_case : square_cells beach 0 0 1 /\ fence_shear2d (32 / 100) (48 / 100) 1 90 beach (fun _ _ => 0) (fun _ _ => - (1 / 2)) (fun _ _ => 0) 0 29 = (0, 1 / 2).
Proof.
  split; [apply unit_cells|]. rewrite (c120_uniform _ _ _ 0 0 1 90 _ _ _ (- (1 / 2)) 0 29) by (unfold beach; auto using unit_cells; cbn; lra || lia).
  assert (E : radians 90 = PI / 2) by (unfold radians; field). rewrite E, cos_PI2, sin_PI2. f_equal; ring.
Qed.
Lemma lost_case : fence_shear2d (32 / 100) (48 / 100) 1 0 beach fences (fun _ _ => 0) (fun _ _ => - (1 / 2)) 2 10 = (0, 0).
Proof. apply c120_lost; [cbn; lia | cbn; lia | reflexivity]. Qed.
Lemma upwind_case : square_cells beach 0 0 1 /\ (forall k, (k < cols beach)%nat -> 0 < fences 2%nat k -> (1 < k)%nat) /\
  left_over (32 / 100) (48 / 100) 225 (turn_grid (225 + 90) (centre beach) beach) fences 2 1 = 1.
Proof.
  assert (F : forall k, (k < cols beach)%nat -> 0 < fences 2%nat k -> (1 < k)%nat). { intros k _. unfold fences. destruct (Nat.eqb_spec k 2); [lia | lra]. }
  split; [apply unit_cells | split; [exact F|]]. apply (c121_upwind _ _ _ _ _ 0 0 1); [apply unit_cells | lra | lra | lra | exact F].
Qed.
Lemma lee_case : Shelter_Spec.okin_ok (32 / 100) (48 / 100) /\ only_fence (cols beach) fences 2 2 /\
  left_over (32 / 100) (48 / 100) 270 (turn_grid (270 + 90) (centre beach) beach) fences 2 27 = 1 /\
  Rabs (left_over (32 / 100) (48 / 100) 270 (turn_grid (270 + 90) (centre beach) beach) fences 2 2 - 32 / 100) <= 1 / 100000.
Proof.
  assert (O : Shelter_Spec.okin_ok (32 / 100) (48 / 100)) by (split; lra).
  assert (F : only_fence (cols beach) fences 2 2). { split; [cbn; lia|]. split; [cbn; lra|]. intros k _ K. unfold fences. destruct (Nat.eqb_spec k 2); [contradiction | lra]. }
  split; [exact O | split; [exact F|]]. destruct west as [_ S]. split.
  - apply (c121_lee (32 / 100) (48 / 100) 270 (centre beach) beach 0 0 1 fences 2 2 27 O (unit_cells _ _) ltac:(lra) ltac:(lra) ltac:(lra) ltac:(cbn; lia) ltac:(cbn; lia) ltac:(lia) F).
    rewrite S. change (fences 2%nat 2%nat) with 1. replace (Rabs (-1)) with 1 by (rewrite Rabs_left; lra). rewrite !INR_IZR_INZ. cbn. lra.
  - destruct (c121_lee (32 / 100) (48 / 100) 270 (centre beach) beach 0 0 1 fences 2 2 2 O (unit_cells _ _) ltac:(lra) ltac:(lra) ltac:(lra) ltac:(cbn; lia) ltac:(cbn; lia) ltac:(lia) F) as [A _].
    replace ((INR 2 - INR 2) * 1 * Rabs (sin (radians 270))) with 0 in A by ring. change (fences 2%nat 2%nat) with 1 in A. specialize (A ltac:(lra)). unfold okin_share in A.
    replace (0 * (48 / 100) / 1) with 0 in A by field. rewrite Ropp_0, exp_0 in A. replace (32 / 100 + (1 - 32 / 100) * (1 - 1)) with (32 / 100) in A by ring. exact A.
Qed.
Lemma plane_case : square_cells beach 0 0 1 /\ sample beach (fun r c => 1 + 2 * gx beach r c - gy beach r c) (0 + (7 / 2) * 1, 0 + (5 / 4) * 1) = 27 / 4.
Proof.
  split; [apply unit_cells|]. rewrite (c120_plane beach 0 0 1 _ 1 2 (-1) (7 / 2) (5 / 4)); [lra | apply unit_cells | lra | cbn; lia | cbn; lia | | |].
  - intros. ring.
  - unfold beach, unit_grid. cbn [cols]. rewrite INR_IZR_INZ. simpl. lra.
  - unfold beach, unit_grid. cbn [rows]. rewrite INR_IZR_INZ. simpl. lra.
Qed.
