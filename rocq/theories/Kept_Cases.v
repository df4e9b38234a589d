(** Concrete cases of the weights kept after a step. *)
From Coq Require Import QArith Lia Lqa List Bool Arith.
From Verif Require Import Base Num Utils_Model Utils_Spec Bed_Model Bed_Spec Solver_Model Solver_Spec Linear Solver_Cases Run_Model Run_Spec Run_Proofs Run_Cases
  Day_Model Day_Spec Limit_Spec Limit_Proofs Kept_Spec Kept_Proofs.
Import ListNotations.
Open Scope Q_scope.

(** A thin cover, first of two fractions, then of one of them only. *)
Definition thin (a b : Q) : bedcell := {| Bed_Model.mass := [[a; b]; [20; 10]]; Bed_Model.pickup := [0; 0]; zb := 1; zs := 0 |}.
Definition s181 (a b : Q) : state := {| air := [zeros; zeros]; sand := [thin a b; thin a b; thin a b; thin a b]; oldCu := [zeros; zeros]; oldCuf := [zeros; zeros]; oldw := fun _ => [0; 0] |}.
Lemma state181 a b : 0 <= a -> 0 <= b -> 0 < a + b -> sound_state 2 k123 (s181 a b).
Proof.
  intros A B C. split; [reflexivity|]. split; [intros x Ha i _; cbn in Ha; members; vm_compute; discriminate|]. split; [reflexivity|].
  assert (P : sound_layers 2 (Bed_Model.mass (thin a b))).
  { split; [discriminate|]. split; [intros l Hl; cbn in Hl; members; reflexivity|].
    split; [intros l Hl x Hx; cbn in Hl; members; cbn in Hx; members; try assumption; vm_compute; discriminate|].
    intros l Hl; cbn in Hl; members; cbn [qsum fold_right]; lra. }
  intros c Hc. cbn [sand s181 In] in Hc. members; exact P.
Qed.
Lemma plain181 q q' : 0 <= q -> 0 <= q' -> plain_winds (gauss 4) 2 k123 [breeze q; breeze q'].
Proof.
  intros Hq Hq'. assert (H1 : sensible k123) by (apply case_sensible; [discriminate | lia | lra]).
  assert (P : forall x, 0 <= x -> plain_wind (gauss 4) k123 (breeze x)).
  { intros x Hx. destruct (breeze_fair x Hx) as (F1 & F2 & F3 & F4 & F5 & F6 & F7 & F8 & F9).
    split; [exact F1|]. split; [exact F2|]. split; [apply Solver_Cases.onshore_gathers; assumption|]. split; [exact F5|]. split; [exact F6|]. split; [exact F7|].
    intros i _. cbn. repeat split; lra. }
  split; [reflexivity|]. split; [intros w [<- | [<- | []]]; apply P; assumption|]. intros j _. left. intros w [<- | [<- | []]]; reflexivity.
Qed.
(** Both fractions converge; the first and the second weight in cell 1 used by the solver, and those kept. *)
Definition weights181 (x : result (option (state * list (list outcome)))) : option (bool * bool * (Q * Q) * (Q * Q)) :=
  match x with
  | Ok (Some (s1, [[o1; o2]])) => Some (converged o1, converged o2, (Qred (weight o1 1%nat), Qred (weight o2 1%nat)), (Qred (nth 0 (oldw s1 1%nat) 0), Qred (nth 1 (oldw s1 1%nat) 0)))
  | _ => None
  end.
Lemma weights181_inv x b1 b2 u1 u2 v1 v2 : weights181 x = Some (b1, b2, (u1, u2), (v1, v2)) ->
  exists s1 o1 o2, x = Ok (Some (s1, [[o1; o2]])) /\ converged o1 = b1 /\ converged o2 = b2 /\ weight o1 1%nat == u1 /\ weight o2 1%nat == u2 /\ nth 0 (oldw s1 1%nat) 0 == v1 /\ nth 1 (oldw s1 1%nat) 0 == v2.
Proof.
  unfold weights181. destruct x as [[[s1 [|[|o1 [|o2 [|? ?]]] [|? ?]]]|]|]; try discriminate. intros D. injection D as D1 D2 D3 D4 D5 D6.
  exists s1, o1, o2. split; [reflexivity|]. split; [exact D1|]. split; [exact D2|]. rewrite <- D3, <- D4, <- D5, <- D6, !Qred_correct. repeat split.
Qed.
Lemma c181_case : sound_setup 2 k123 e123 /\ sound_state 2 k123 (s181 1 1) /\ plain_winds (gauss 4) 2 k123 [breeze 8; breeze 4] /\ 0 < nth (2 - 1) (at_first e123 false (s181 1 1) [breeze 8; breeze 4] 1) 0 /\
  exists s1 o1 o2, run (gauss 4) k123 e123 false (s181 1 1) [Some [breeze 8; breeze 4]] = Ok (Some (s1, [[o1; o2]])) /\ converged o1 = true /\ converged o2 = true /\
  weight o1 1%nat == 3283 # 17496 /\ nth 0 (oldw s1 1%nat) 0 == 3283 # 17496 /\ kept s1 [o1; o2] 1.
Proof.
  split; [exact setup123|]. split; [apply state181; lra|]. split; [apply plain181; lra|]. split; [vm_compute; reflexivity|].
  assert (D : weights181 (run (gauss 4) k123 e123 false (s181 1 1) [Some [breeze 8; breeze 4]]) = Some (true, true, (3283 # 17496, 14356559 # 38263752), (3283 # 17496, 14356559 # 38263752))) by (vm_compute; reflexivity).
  destruct (weights181_inv _ _ _ _ _ _ _ D) as (s1 & o1 & o2 & E & D1 & D2 & D3 & D4 & D5 & D6). exists s1, o1, o2.
  split; [exact E|]. split; [exact D1|]. split; [exact D2|]. split; [exact D3|]. split; [exact D5|].
  intros [|[|i]] o H; cbn in H; [injection H as <-|injection H as <-|destruct i; discriminate H]; [rewrite D3, D5|rewrite D4, D6]; reflexivity.
Qed.
(** Only the first fraction is there and there is little of it. Its concentration is computed with a weight below 1/5, but the kept weight is 1. *)
Lemma c181_refuted : exists sp k e s ws s1 o1 o2 j, sound_setup 2 k e /\ sound_state 2 k s /\ plain_winds sp 2 k ws /\ (j < number_of_cells k)%nat /\
  run sp k e false s [Some ws] = Ok (Some (s1, [[o1; o2]])) /\ converged o1 = true /\ converged o2 = true /\ weight o1 j < 1 # 5 /\ nth 0 (oldw s1 j) 0 == 1 /\ ~ kept s1 [o1; o2] j.
Proof.
  assert (D : weights181 (run (gauss 4) k123 e123 false (s181 1 0) [Some [breeze 8; breeze 4]]) = Some (true, true, (1231 # 6561, 0), (1, 0))) by (vm_compute; reflexivity).
  destruct (weights181_inv _ _ _ _ _ _ _ D) as (s1 & o1 & o2 & E & D1 & D2 & X & _ & Y & _). exists (gauss 4), k123, e123, (s181 1 0), [breeze 8; breeze 4], s1, o1, o2, 1%nat.
  split; [exact setup123|]. split; [apply state181; lra|]. split; [apply plain181; lra|]. split; [cbn; lia|]. split; [exact E|]. split; [exact D1|]. split; [exact D2|].
  split; [rewrite X; reflexivity|]. split; [exact Y|]. intros K. specialize (K 0%nat o1 eq_refl). rewrite X, Y in K. discriminate K.
Qed.
