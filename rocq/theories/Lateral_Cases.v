(** Concrete cases between lateral borders that are not connected. *)
From Coq Require Import QArith Lia Lqa List Bool Arith Setoid.
From Verif Require Import Base Num Utils_Model Solver_Model Solver_Spec Linear Solver_Proofs Solver_Iter Solver_Cases Units_Cases Pieter_Model Pieter_Spec Pieter_Cases Lateral_Spec.
Import ListNotations.
Open Scope Q_scope.

(** Three rows of three cells, wind slanting towards the land and the lower rows. *)
Definition kL (tr : bool) (b : boundary) : pcfg := {| base := {| trunk := tr; ny := 2; nx := 2; dt := 1; T := 1; alpha := 1; max_error := 1 # 1000; max_iter := 2; offshore := Flux; onshore := Gradient; lateral := b;
  offshore_flux := 1; onshore_flux := 0; constant_offshore_flux := 0; constant_onshore_flux := 0 |}; lateral_flux := 1 |}.
(** Air with 2 everywhere, which is what it can carry. *)
Definition full_air : input := case_d (fun _ => 2) (fun _ => 2) ones (fun _ => 2).
(** Air with 1 everywhere, which can carry 2. *)
Definition half_air : input := case_d (fun _ => 2) (fun _ => 2) (fun _ => 5) ones.

Lemma solvable_checked n A v : checked n A v = true -> solvable (gauss n) n A.
Proof.
  intros H. apply checked_ok in H as (H1 & H2). intros y. split. apply solves_iff, (gauss_solves n A v y H1 H2).
  intros x Hx i Hi. apply (unique_solution n A v y x (gauss n A y) H1 H2); [apply solves_iff, Hx | apply (gauss_solves n A v y H1 H2) | exact Hi].
Qed.
Lemma kL_solvable tr b : b = Flux \/ b = Constant \/ b = Gradient -> solvable (gauss 9) (number_of_cells (kL tr b)) (pmatrix (kL tr b) fE).
Proof. intros [-> | [-> | ->]]; destruct tr; apply (solvable_checked 9 _ (falling (kL true Flux))); vm_compute; reflexivity. Qed.
Lemma kL_workable tr b : workable (kL tr b).
Proof. repeat split; cbn; try lia; lra. Qed.
Lemma kL_rect tr b : rectangular (kL tr b) fE.
Proof. intros r c _ _. cbn. repeat split; lra. Qed.
Lemma kL_wind tr b : uniform_wind (kL tr b) fE 1 (-(1)).
Proof. intros r c _ _. cbn. split; reflexivity. Qed.
Lemma case_borders tr b : b = Flux \/ b = Constant \/ b = Gradient -> workable (kL tr b) /\ rectangular (kL tr b) fE /\ known_borders (kL tr b) /\ uniform_wind (kL tr b) fE 1 (-(1)) /\ solvable (gauss 9) (number_of_cells (kL tr b)) (pmatrix (kL tr b) fE) /\
  psaturated (kL tr b) full_air ones (fun _ => 2) 2 /\ open_ends (kL tr b) 1 (-(1)) /\ carried_in (kL tr b) full_air 2 /\
  shown (kL tr b) (run_p (kL tr b) fE full_air ones (fun _ => 2)) = Some (repeat 2 9, repeat 0 9, true).
Proof.
  intros H. split; [apply kL_workable|]. split; [apply kL_rect|]. split; [split; [left; reflexivity | split; [right; right; reflexivity | split; [exact H | discriminate]]]|]. split; [apply kL_wind|]. split; [apply kL_solvable, H|].
  split; [split; [intros i _; cbn; unfold ones; repeat split; lra | split; [intros _ r _; cbn; lra | intros _; split; intros _; cbn; lra]]|].
  split; [split; [discriminate | split; [intros _; lra | intros [E | E]; discriminate E]]|]. split; [intros _ c _; cbn; split; lra|].
  destruct H as [-> | [-> | ->]]; destruct tr; vm_compute; reflexivity.
Qed.
(** The first row takes part of what its neighbour gains. *)
Lemma border_changes : exists sp k f d w x o, workable k /\ rectangular k f /\ known_borders k /\ uniform_wind k f 1 (-(1)) /\ solvable sp (number_of_cells k) (pmatrix k f) /\ nonnegative_input k d /\
  lateral k = Constant /\ (forall i, (i < number_of_cells k)%nat -> x i == lCt d i /\ 0 <= w i) /\ pieter_fraction sp k f d w x = Ok (Some o) /\ converged o = true /\
  at_cell k (lCt d) 0 0 == 1 /\ at_cell k (ct o) 0 0 == 3 # 2.
Proof.
  assert (E : exists o, run_p (kL true Constant) fE half_air ones ones = Ok (Some o) /\ converged o = true /\ ct o 0%nat == 3 # 2).
  { assert (S : shown (kL true Constant) (run_p (kL true Constant) fE half_air ones ones) = Some ([3 # 2; 11 # 8; 4 # 3; 3 # 2; 11 # 8; 4 # 3; 1; 1; 1], [1 # 2; 5 # 8; 2 # 3; 1 # 2; 5 # 8; 2 # 3; 1; 1; 1], true)) by (vm_compute; reflexivity).
    unfold shown in S. destruct (run_p _ _ _ _ _) as [[o|]|]; try discriminate S. injection S as S0. exists o. split; [reflexivity|]. rewrite <- (Qred_correct (ct o 0%nat)). split. assumption. rewrite S0. reflexivity. }
  destruct E as (o & E1 & E2 & E3). exists (gauss 9), (kL true Constant), fE, half_air, ones, ones, o.
  split; [apply kL_workable|]. split; [apply kL_rect|]. split; [split; [left; reflexivity | split; [right; right; reflexivity | split; [right; left; reflexivity | discriminate]]]|]. split; [apply kL_wind|].
  split; [apply kL_solvable; tauto|]. split; [intros i _; repeat split; vm_compute; discriminate|]. split; [reflexivity|]. split; [intros i _; cbn; unfold ones; split; lra|].
  split; [exact E1|]. split; [exact E2|]. split; [reflexivity | exact E3].
Qed.
(** Longshore uniform input of the gradient boundary, with wind towards the higher and towards the lower rows. *)
Definition fH : flow := case_f (even 1) (even 1).
Lemma read_off (k : pcfg) r l p : shown k r = Some (l, p, true) -> exists o, r = Ok (Some o) /\ converged o = true /\ forall i, (i < number_of_cells k)%nat -> ct o i == nth i l 0.
Proof.
  unfold shown. destruct r as [[o|]|]; try discriminate. intros H. injection H as H1 H2 H3. exists o. split; [reflexivity|]. split; [exact H3|]. intros i Hi. rewrite <- H1. unfold show.
  rewrite (nth_indep _ 0 (Qred (ct o 0%nat))) by (rewrite map_length, seq_length; exact Hi). rewrite (map_nth (fun i => Qred (ct o i))), seq_nth by exact Hi. cbn [Nat.add]. symmetry. apply Qred_correct.
Qed.
Lemma kL_known tr : known_borders (kL tr Gradient).
Proof. split; [left; reflexivity | split; [right; right; reflexivity | split; [right; right; reflexivity | discriminate]]]. Qed.
Lemma half_fine tr b : nonnegative_input (kL tr b) half_air.
Proof. intros i _; repeat split; vm_compute; discriminate. Qed.
Lemma rows_differ : exists sp k f d w x o, workable k /\ rectangular k f /\ known_borders k /\ uniform_wind k f 1 (-(1)) /\ solvable sp (number_of_cells k) (pmatrix k f) /\ nonnegative_input k d /\ lateral k = Gradient /\
  same_rows k d w x /\ pieter_fraction sp k f d w x = Ok (Some o) /\ converged o = true /\ at_cell k (ct o) 0 0 == 11 # 6 /\ at_cell k (ct o) 1 0 == 3 # 2 /\ at_cell k (ct o) 2 0 == 5 # 3.
Proof.
  destruct (read_off (kL true Gradient) (run_p (kL true Gradient) fE half_air ones ones) [11 # 6; 125 # 72; 5 # 3; 3 # 2; 11 # 8; 4 # 3; 5 # 3; 14 # 9; 3 # 2] [1 # 6; 19 # 72; 1 # 3; 1 # 2; 5 # 8; 2 # 3; 1 # 3; 4 # 9; 1 # 2]) as (o & E1 & E2 & E3). vm_compute. reflexivity.
  exists (gauss 9), (kL true Gradient), fE, half_air, ones, ones, o. split; [apply kL_workable|]. split; [apply kL_rect|]. split; [apply kL_known|]. split; [apply kL_wind|]. split; [apply kL_solvable; tauto|]. split; [apply half_fine|]. split; [reflexivity|].
  split; [intros r c _ _; repeat split; reflexivity|]. split; [exact E1|]. split; [exact E2|]. unfold at_cell. cbn [Nat.mul Nat.add]. repeat split; (rewrite E3 by (cbn; lia)); reflexivity.
Qed.
Lemma too_much : exists sp k f d w x o, workable k /\ rectangular k f /\ known_borders k /\ uniform_wind k f 1 (-(1)) /\ solvable sp (number_of_cells k) (pmatrix k f) /\ nonnegative_input k d /\ lateral k = Gradient /\ trunk k = false /\
  same_rows k d w x /\ pbounded k d w x 2 /\ pieter_fraction sp k f d w x = Ok (Some o) /\ converged o = true /\ at_cell k (ct o) 0 2 == 5 # 2.
Proof.
  destruct (read_off (kL false Gradient) (run_p (kL false Gradient) fE half_air ones ones) [7 # 3; 22 # 9; 5 # 2; 5 # 3; 14 # 9; 3 # 2; 2; 2; 2] [-1 # 3; -4 # 9; -1 # 2; 1 # 3; 4 # 9; 1 # 2; 0; 0; 0]) as (o & E1 & E2 & E3). vm_compute. reflexivity.
  exists (gauss 9), (kL false Gradient), fE, half_air, ones, ones, o. split; [apply kL_workable|]. split; [apply kL_rect|]. split; [apply kL_known|]. split; [apply kL_wind|]. split; [apply kL_solvable; tauto|]. split; [apply half_fine|]. split; [reflexivity|]. split; [reflexivity|].
  split; [intros r c _ _; repeat split; reflexivity|]. split. { split. intros i _. cbn. unfold ones. repeat split; lra. cbn. repeat split; intros; try discriminate; lra. }
  split; [exact E1|]. split; [exact E2|]. unfold at_cell. cbn [Nat.mul Nat.add]. rewrite E3 by (cbn; lia). reflexivity.
Qed.
Lemma case_alike : workable (kL true Gradient) /\ rectangular (kL true Gradient) fH /\ known_borders (kL true Gradient) /\ uniform_wind (kL true Gradient) fH 1 1 /\ solvable (gauss 9) 9 (pmatrix (kL true Gradient) fH) /\ same_rows (kL true Gradient) half_air ones ones /\
  offshore (kL true Gradient) = Flux /\ onshore (kL true Gradient) = Gradient /\
  shown (kL true Gradient) (run_p (kL true Gradient) fH half_air ones ones) = Some ([5 # 3; 14 # 9; 3 # 2; 5 # 3; 14 # 9; 3 # 2; 5 # 3; 14 # 9; 3 # 2], [1 # 3; 4 # 9; 1 # 2; 1 # 3; 4 # 9; 1 # 2; 1 # 3; 4 # 9; 1 # 2], true).
Proof.
  split; [apply kL_workable|]. split; [intros r c _ _; cbn; repeat split; lra|]. split; [apply kL_known|]. split; [intros r c _ _; split; reflexivity|]. split; [apply (solvable_checked 9 _ (falling (kL true Flux))); vm_compute; reflexivity|].
  split; [intros r c _ _; repeat split; reflexivity|]. split; [reflexivity|]. split; [reflexivity|]. vm_compute. reflexivity.
Qed.
Lemma case_border : workable (kL true Constant) /\ lateral (kL true Constant) = Constant /\ (forall r c, within (kL true Constant) r c -> 0 <= un fH r c) /\ solvable (gauss 9) 9 (pmatrix (kL true Constant) fH) /\ all_nonneg 9 ones /\
  shown (kL true Constant) (run_p (kL true Constant) fH half_air ones ones) = Some ([1; 1; 1; 3 # 2; 11 # 8; 4 # 3; 1; 1; 1], [1; 1; 1; 1 # 2; 5 # 8; 2 # 3; 1; 1; 1], true).
Proof.
  split; [apply kL_workable|]. split; [reflexivity|]. split; [intros r c _; cbn; unfold even; lra|]. split; [apply (solvable_checked 9 _ (falling (kL true Flux))); vm_compute; reflexivity|].
  split; [intros i _; unfold ones; lra|]. vm_compute. reflexivity.
Qed.
