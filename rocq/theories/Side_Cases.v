(** Concrete cases for the rows beside the lateral boundaries. *)
From Coq Require Import QArith Lia Lqa List Bool Arith Setoid.
From Verif Require Import Base Num Solver_Model Solver_Spec Linear Solver_Proofs Solver_Iter Solver_Balance Solver_Cases Units_Cases Side_Spec Side_Proofs.
Import ListNotations.
Open Scope Q_scope.

(** Wind across and along the coast, three rows. *)
Definition kside (tr : bool) : cfg := {| trunk := tr; ny := 2; nx := 3; dt := 1; T := 2; alpha := 1; max_error := 1 # 2; max_iter := 9; offshore := Constant; onshore := Constant; lateral := Constant;
     offshore_flux := 1; onshore_flux := 0; constant_offshore_flux := 0; constant_onshore_flux := 0 |}.
Definition fside : flow := case_f (even 1) (even 1).
Definition dside (l : nat -> Q) : input := case_d tens tens tens l.
Lemma kside_checked tr : checked 12 (matrix (kside tr) fside) (falling (kside tr)) = true.
Proof. destruct tr; vm_compute; reflexivity. Qed.
Lemma kside_exact tr : exact_solver 12 (matrix (kside tr) fside) (gauss 12).
Proof. destruct (checked_ok _ _ _ (kside_checked tr)) as (H1 & H2). apply (one_of _ _ _ H1 H2). Qed.
Lemma kside_solves tr y : is_solution 12 (matrix (kside tr) fside) y (gauss 12 (matrix (kside tr) fside) y).
Proof. destruct (checked_ok _ _ _ (kside_checked tr)) as (H1 & H2). apply (gauss_solves 12 _ _ y H1 H2). Qed.
Lemma kside_beside tr : beside (kside tr) fside 0 2 /\ beside (kside tr) fside 2 1.
Proof. repeat split; cbn; try lia. right. split; [reflexivity | vm_compute; discriminate]. Qed.
(** Step after step. *)
Fixpoint after (m : nat) : nat -> Q := match m with O => zeros | S m' => memo 12 (gauss 12 (matrix (kside true) fside) (rhs (kside true) fside (dside (after m')) ones)) end.
Lemma after_steps : steps_of (kside true) fside (dside zeros) ones after.
Proof.
  intros m i Hi. change (number_of_cells (kside true)) with 12%nat in *. cbn [after]. change (with_air (dside zeros) (after m)) with (dside (after m)).
  rewrite <- (kside_solves true (rhs (kside true) fside (dside (after m)) ones) i Hi) at 1. unfold row_times.
  apply (sumn_ext 12). intros j Hj. rewrite memo_get by exact Hj. reflexivity.
Qed.
Lemma c141_case : beside (kside true) fside 0 2 /\ beside (kside true) fside 2 1 /\ trunk (kside true) = true /\ alpha (kside true) == 1 /\
  is_solution (number_of_cells (kside true)) (matrix (kside true) fside) (rhs (kside true) fside (dside (after 1)) ones) (after 2) /\
  steps_of (kside true) fside (dside zeros) ones after /\
  show (kside true) (after 1) = [0; 5; 5; 0; 0; 20 # 7; 180 # 49; 0; 0; 5; 5; 0] /\ show (kside true) (after 3) = [0; 15; 15; 0; 0; 2460 # 343; 23300 # 2401; 0; 0; 15; 15; 0].
Proof.
  destruct (kside_beside true). split; [assumption|]. split; [assumption|]. split; [reflexivity|]. split; [reflexivity|]. split; [exact (after_steps 1%nat)|]. split; [apply after_steps|]. split; vm_compute; reflexivity.
Qed.
Lemma c141_steady_case : beside (kside false) fside 0 2 /\ trunk (kside false) = false /\ exists x, is_solution (number_of_cells (kside false)) (matrix (kside false) fside) (rhs (kside false) fside (dside zeros) ones) x /\
  show (kside false) x = [0; 5; 5; 0; 0; 4; 28 # 5; 0; 0; 5; 5; 0].
Proof.
  split; [apply kside_beside|]. split; [reflexivity|]. eexists. split; [apply (kside_solves false)|]. vm_compute. reflexivity.
Qed.
Lemma c141_more : exists sp k f d w M o i, trunk k = true /\ lateral k = Constant /\ sensible k /\ rectangular k f /\ (exists u v, 0 < u /\ uniform_wind k f u v) /\ alpha k == 1 /\ nonnegative_input k d /\ nonnegative_ends k f /\
  exact_solver (number_of_cells k) (matrix k f) sp /\ bounded_by k f d w M /\ solve_fraction sp k f d w = Ok (Some o) /\ converged o = true /\ (i < number_of_cells k)%nat /\ M < ct o i.
Proof.
  exists (gauss 12), (kside true), fside, (dside tens), ones, 10. eexists. exists 1%nat.
  split; [reflexivity|]. split; [reflexivity|]. split; [repeat split; cbn; try lia; lra|]. split; [apply case_rect|]. split; [exists 1, 1; split; [lra | apply case_even]|]. split; [reflexivity|].
  split; [apply case_input; intros; unfold tens; repeat split; lra|]. split; [repeat split; cbn; try lra|]. split; [apply kside_exact|].
  split. { split; [lra|]. split. intros i _. unfold capacity, dside, case_d, tens, ones. cbn. split; lra. intros r _. cbn. split; apply Qle_shift_div_r; lra. }
  split; [vm_compute; reflexivity|]. split; [reflexivity|]. split; [cbn; lia|]. vm_compute. reflexivity.
Qed.
