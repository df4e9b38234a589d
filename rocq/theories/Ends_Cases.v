(** Concrete cases of the conditions at the ends. *)
From Coq Require Import QArith Lia Lqa List Bool Arith Setoid.
From Verif Require Import Base Num Solver_Model Solver_Spec Linear Solver_Proofs Solver_Iter Solver_Balance Solver_Cases Units_Cases Side_Cases Ends_Spec Ends_Proofs.
Import ListNotations.
Open Scope Q_scope.

(** A column twice as long as the others; uniform at sea, constant gradient at the landward end. *)
Definition f170 : flow := {| us := even 1; un := even 0; uu := even 1; ds := fun _ c => if Nat.eqb c 1 then 2 else 1; dn := even 1 |}.
Definition k170 : cfg := case_k true 0 3 1 12 Uniform Gradient 0.
Definition d170 : input := case_d (fun i => 10 * inject_Z (Z.of_nat i)) (fun i => 10 * inject_Z (Z.of_nat i)) (fun _ => 100) zeros.
(** The solution of the system of four equations. *)
Definition sp170 (A : nat -> nat -> Q) (y : nat -> Q) (i : nat) : Q :=
  let x1 := y 1%nat / 2 + y 0%nat / 4 in let x2 := (y 2%nat + x1) / 3 in
  match i with O => x1 + y 0%nat | 1%nat => x1 | 2%nat => x2 | _ => y 3%nat + (3 # 2) * x2 - (1 # 2) * x1 end.
Lemma solving170 : solving k170 f170 sp170.
Proof.
  intros y i Hi. change (number_of_cells k170) with 4%nat in *. unfold row_times. cbn [seq map qsum fold_right].
  assert (E : forall a b c e, matrix k170 f170 i 0 == a -> matrix k170 f170 i 1 == b -> matrix k170 f170 i 2 == c -> matrix k170 f170 i 3 == e ->
    matrix k170 f170 i 0 * sp170 (matrix k170 f170) y 0 + (matrix k170 f170 i 1 * sp170 (matrix k170 f170) y 1 + (matrix k170 f170 i 2 * sp170 (matrix k170 f170) y 2 + (matrix k170 f170 i 3 * sp170 (matrix k170 f170) y 3 + 0))) ==
    a * sp170 (matrix k170 f170) y 0 + (b * sp170 (matrix k170 f170) y 1 + (c * sp170 (matrix k170 f170) y 2 + (e * sp170 (matrix k170 f170) y 3 + 0)))) by (intros a b c e -> -> -> ->; reflexivity).
  assert (C : (i = 0 \/ i = 1 \/ i = 2 \/ i = 3)%nat) by lia. destruct C as [-> | [-> | [-> | ->]]].
  - rewrite (E 1 (-1) 0 0) by (vm_compute; reflexivity). unfold sp170. field.
  - rewrite (E (-1 # 2) (5 # 2) 0 0) by (vm_compute; reflexivity). unfold sp170. field.
  - rewrite (E 0 (-1) 3 0) by (vm_compute; reflexivity). unfold sp170. field.
  - rewrite (E 0 (1 # 2) (-3 # 2) 1) by (vm_compute; reflexivity). unfold sp170. field.
Qed.
(** Is there sand in every cell? *)
Definition all_sandy (k : cfg) (o : outcome) : bool := forallb (fun i => Qltb 0 (ct o i)) (seq 0 (number_of_cells k)).
Lemma all_sandy_ok k o : all_sandy k o = true -> sandy k o.
Proof.
  unfold all_sandy. rewrite forallb_forall. intros H r c Hr Hc. left. unfold at_cell. fold (width k). pose proof (rc_lt k r c Hr Hc) as L. rewrite cells_eq in L. specialize (H _ (proj2 (in_seq _ _ _) ltac:(split; [apply Nat.le_0_l | exact L]))). destruct (Qltb_spec 0 (ct o (r * width k + c)%nat)); [assumption | discriminate H].
Qed.
Lemma c170_case : with_ends k170 f170 /\ nonnegative_ends k170 f170 /\ (forall i, (i < number_of_cells k170)%nat -> 0 <= Cu0 d170 i) /\ solving k170 f170 sp170 /\ free_row k170 0 /\
  exists o, solve_fraction sp170 k170 f170 d170 ones = Ok (Some o) /\ sandy k170 o /\ show k170 (ct o) = [5; 5; 25 # 3; 10].
Proof.
  split. split; [discriminate|]. split; [cbn; lia|]. intros r c _ _. cbn. destruct (Nat.eqb c 1); split; reflexivity.
  split. cbn. repeat split; try (vm_compute; discriminate).
  split. intros i _. change (0 <= 10 * inject_Z (Z.of_nat i)). apply Qmult_le_0_compat; [discriminate | change 0 with (inject_Z 0); rewrite <- Zle_Qle; lia].
  split. apply solving170. split. split; [apply Nat.le_0_l | discriminate].
  assert (H : match solve_fraction sp170 k170 f170 d170 ones with Ok (Some o) => (all_sandy k170 o, show k170 (ct o)) | _ => (false, []) end = (true, [5; 5; 25 # 3; 10])) by (vm_compute; reflexivity).
  destruct (solve_fraction sp170 k170 f170 d170 ones) as [[o|]|]; try discriminate H. exists o. split. reflexivity. apply pair_equal_spec in H. destruct H as (H1 & H2). split. apply all_sandy_ok, H1. exact H2.
Qed.
(** Given concentrations at both ends; the first row of [even] grids. *)
Definition k170b : cfg := case_k true 0 3 1 12 Constant Constant 2.
Definition d170b : input := case_d tens tens (fun _ => 100) zeros.
Lemma k170b_ok b2 : b2 = Constant -> let k := case_k true 0 3 1 12 Constant b2 2 in sensible k /\ rectangular k f31 /\ lateral_uniform k f31 /\ gathering k f31 /\ quiet_ends k f31 /\ fully_implicit k /\ nonnegative_input k d170b /\ nonnegative_ends k f31 /\ 0 < max_error k /\
  exact_solver (number_of_cells k) (matrix k f31) (gauss 4) /\ all_nonneg (number_of_cells k) ones.
Proof.
  intros -> k. assert (H1 : sensible k) by (apply case_sensible; [discriminate | lia | lra]). destruct (uniform_gathering _ _ _ _ (case_even k 1 0)) as (H3 & H4). specialize (H4 H1).
  assert (H5 : prescribed_ends k) by (split; [right; left; reflexivity | split; [right; left; reflexivity | reflexivity]]).
  split; [exact H1|]. split; [apply case_rect|]. split; [exact H3|]. split; [exact H4|]. split; [left; exact H5|]. split; [intros _; reflexivity|].
  split; [intros i _; cbn; unfold Solver_Spec.capacity; cbn; repeat split; vm_compute; discriminate|]. split; [apply case_ends; lra|]. split; [reflexivity|]. split; [apply (gauss_exact k f31); try assumption; apply case_rect|]. intros i _. discriminate.
Qed.
Lemma c170_always : sensible k170b /\ rectangular k170b f31 /\ lateral_uniform k170b f31 /\ gathering k170b f31 /\ quiet_ends k170b f31 /\ fully_implicit k170b /\ nonnegative_input k170b d170b /\ nonnegative_ends k170b f31 /\ 0 < max_error k170b /\
  exact_solver (number_of_cells k170b) (matrix k170b f31) (gauss 4) /\ all_nonneg (number_of_cells k170b) ones /\
  match solve_fraction (gauss 4) k170b f31 d170b ones with Ok (Some o) => (converged o, show k170b (ct o)) | _ => (false, []) end = (true, [2; 4; 14 # 3; 0]).
Proof. destruct (k170b_ok Constant eq_refl) as (A1 & A2 & A3 & A4 & A5 & A6 & A7 & A8 & A9 & A10 & A11). repeat (split; [assumption|]). vm_compute. reflexivity. Qed.
(** 'noflux' at sea: the landward condition 'uniform' is ignored. *)
Definition k170c : cfg := case_k true 0 3 1 12 Noflux Uniform 0.
Lemma c170_noflux : exists sp k f d w o r, offshore k = Noflux /\ onshore k = Uniform /\ sensible k /\ rectangular k f /\ lateral_uniform k f /\ gathering k f /\ quiet_ends k f /\ fully_implicit k /\ nonnegative_input k d /\ nonnegative_ends k f /\ 0 < max_error k /\
  exact_solver (number_of_cells k) (matrix k f) sp /\ all_nonneg (number_of_cells k) w /\ solve_fraction sp k f d w = Ok (Some o) /\ converged o = true /\ (r <= ny k)%nat /\
  at_cell k (ct o) r (nx k) == 0 /\ at_cell k (ct o) r (nx k - 1) == 40 # 9.
Proof.
  assert (H : match solve_fraction (gauss 4) k170c f31 d170b ones with Ok (Some o) => converged o && Qeq_bool (at_cell k170c (ct o) 0 3) 0 && Qeq_bool (at_cell k170c (ct o) 0 2) (40 # 9) | _ => false end = true) by (vm_compute; reflexivity).
  destruct (solve_fraction (gauss 4) k170c f31 d170b ones) as [[o|]|] eqn:E; try discriminate H. apply andb_prop in H. destruct H as (H & Hb). apply andb_prop in H. destruct H as (Hc & Ha).
  exists (gauss 4), k170c, f31, d170b, ones, o, 0%nat. split; [reflexivity|]. split; [reflexivity|].
  assert (H1 : sensible k170c) by (apply case_sensible; [discriminate | lia | lra]). destruct (uniform_gathering _ _ _ _ (case_even k170c 1 0)) as (H3 & H4). specialize (H4 H1).
  assert (H5 : prescribed_ends k170c) by (split; [right; right; split; reflexivity | split; [right; right; split; reflexivity | reflexivity]]).
  split; [exact H1|]. split; [apply case_rect|]. split; [exact H3|]. split; [exact H4|]. split; [left; exact H5|]. split; [intros _; reflexivity|].
  split; [intros i _; cbn; unfold Solver_Spec.capacity; cbn; repeat split; vm_compute; discriminate|]. split; [apply case_ends; lra|]. split; [reflexivity|]. split; [apply (gauss_exact k170c f31); try assumption; apply case_rect|]. split; [intros i _; discriminate|].
  split; [exact E|]. split; [exact Hc|]. split; [apply Nat.le_0_l|]. split; apply Qeq_bool_iff; assumption.
Qed.
(** 'constant' lateral boundaries: the landward condition 'uniform' does not hold in the first row. *)
Definition k170d : cfg := {| trunk := true; ny := 2; nx := 3; dt := 1; T := 2; alpha := 1; max_error := 1 # 2; max_iter := 9; offshore := Constant; onshore := Uniform; lateral := Constant;
     offshore_flux := 1; onshore_flux := 0; constant_offshore_flux := 0; constant_onshore_flux := 0 |}.
Lemma c170_side : exists sp k f d w o r, lateral k = Constant /\ onshore k = Uniform /\ with_ends k f /\ nonnegative_ends k f /\ (forall i, (i < number_of_cells k)%nat -> 0 <= Cu0 d i) /\ solving k f sp /\
  solve_fraction sp k f d w = Ok (Some o) /\ converged o = true /\ (r <= ny k)%nat /\ at_cell k (ct o) r (nx k) == 0 /\ at_cell k (ct o) r (nx k - 1) == 5.
Proof.
  assert (C : checked 12 (matrix k170d fside) (falling k170d) = true) by (vm_compute; reflexivity).
  assert (H : match solve_fraction (gauss 12) k170d fside (case_d tens tens (fun _ => 100) zeros) ones with Ok (Some o) => converged o && Qeq_bool (at_cell k170d (ct o) 0 3) 0 && Qeq_bool (at_cell k170d (ct o) 0 2) 5 | _ => false end = true) by (vm_compute; reflexivity).
  destruct (solve_fraction (gauss 12) k170d fside (case_d tens tens (fun _ => 100) zeros) ones) as [[o|]|] eqn:E; try discriminate H. apply andb_prop in H. destruct H as (H & Hb). apply andb_prop in H. destruct H as (Hc & Ha).
  exists (gauss 12), k170d, fside, (case_d tens tens (fun _ => 100) zeros), ones, o, 0%nat. split; [reflexivity|]. split; [reflexivity|].
  split; [split; [discriminate|]; split; [cbn; lia | intros r c _ _; split; reflexivity]|]. split; [cbn; repeat split; discriminate|]. split; [intros i _; discriminate|].
  split; [intros y; change (number_of_cells k170d) with 12%nat; destruct (checked_ok _ _ _ C) as (H1 & H2); apply (gauss_solves 12 _ _ y H1 H2)|].
  split; [exact E|]. split; [exact Hc|]. split; [apply Nat.le_0_l|]. split; apply Qeq_bool_iff; assumption.
Qed.
