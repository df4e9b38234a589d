(** Statements for Theta_Props.v and concrete cases. *)
From Coq Require Import QArith Lia Lqa List Bool Arith Setoid.
From Verif Require Import Base Num Utils_Model Utils_Spec Bed_Model Bed_Spec Solver_Model Solver_Spec Linear Solver_Proofs Solver_Iter Solver_Balance Solver_Cases Run_Model Run_Spec Run_Proofs Run_Cases Theta_Spec Theta_Proofs.
Import ListNotations.
Open Scope Q_scope.

(** Three cells in a row and Crank-Nicolson; sand is blown in. *)
Definition k167 : cfg := case_k true 0 2 (1 # 2) 12 Constant Uniform 1.
(** Wind with the speed [u] that can move [q] of the sand, and [q'] of the sand at rest. *)
Definition gust (u q q' : Q) : wind := {| speed := case_f (even u) (even 0); wCu := fun _ => q; wCuf := fun _ => q'; wCu0 := fun _ => q |}.
Lemma sensible167 : sensible k167.
Proof. apply case_sensible; [discriminate | lia | lra]. Qed.
Lemma open167 : open_ends k167.
Proof. split; [right; reflexivity|]. split; [right; right; reflexivity | reflexivity]. Qed.
(** Back substitution for the matrices at hand: from the left to the right. *)
Definition sweep (A : nat -> nat -> Q) (y : nat -> Q) : nat -> Q :=
  let x0 := Qred (y 0%nat) in let x1 := Qred ((y 1%nat - A 1%nat 0%nat * x0) / A 1%nat 1%nat) in let x2 := Qred ((y 2%nat - A 2%nat 1%nat * x1) / A 2%nat 2%nat) in fun i => nth i [x0; x1; x2] 0.
Lemma sweep_exact u q q' : 0 <= u -> exact_solver (number_of_cells k167) (matrix k167 (speed (gust u q q'))) sweep.
Proof.
  intros Hu y _ i Hi. set (A := matrix k167 (speed (gust u q q'))). change (number_of_cells k167) with 3%nat in *.
  assert (Hup : upw u = 1) by (unfold upw; destruct (Qle_bool_spec 0 u); [reflexivity | lra]).
  assert (A00 : A 0%nat 0%nat == 1 /\ A 0%nat 1%nat == 0 /\ A 0%nat 2%nat == 0) by (repeat split; reflexivity).
  assert (A11 : A 1%nat 1%nat == 1 + (1 # 2) * (u + 1) /\ A 1%nat 2%nat == 0).
  { unfold A. split; [change (0 + 0 + base0 k167 (speed (gust u q q')) 0 1 + 0 + 0 == 1 + (1 # 2) * (u + 1)) | change (0 + 0 + 0 + basep1 k167 (speed (gust u q q')) 0 1 + 0 == 0)];
    unfold base0, basep1, courant_s, courant_n, sgn, tstep, Ti, implicitness, dsdni; cbn -[upw Qmult Qplus Qdiv Qminus Qinv]; unfold even; rewrite Hup; try change (upw 0) with 1; field. }
  assert (A22 : A 2%nat 2%nat == 1 /\ A 2%nat 0%nat == 0) by (split; reflexivity).
  destruct A00 as (B1 & B2 & B3), A11 as (C1 & C2), A22 as (D1 & D2).
  assert (N1 : ~ A 1%nat 1%nat == 0) by (rewrite C1; lra). assert (N2 : ~ A 2%nat 2%nat == 0) by (rewrite D1; lra).
  clearbody A. unfold row_times, sweep. cbn [seq map qsum fold_right nth]. rewrite !Qred_correct.
  destruct i as [|[|[|i]]]; [| | |lia].
  - rewrite B1, B2, B3. ring.
  - rewrite C2. field. repeat split; assumption.
  - rewrite D2. field. repeat split; assumption.
Qed.
(** Beds of one fraction and of two, still air. *)
Definition cell167 : bedcell := {| Bed_Model.mass := [[30]]; Bed_Model.pickup := [0]; zb := 1; zs := 0 |}.
Definition cell167b : bedcell := {| Bed_Model.mass := [[10; 20]]; Bed_Model.pickup := [0; 0]; zb := 1; zs := 0 |}.
Definition bed167 : bedparams := {| Bed_Model.max_error := 1 # 1000; rhog := 1; porosity := 0; process_bedupdate := true; process_tide := false |}.
Definition e167 : setup := {| bi := 1; bedcomp := false; grains := [1]; base := fun _ => [1]; bedp := bed167 |}.
Definition e167b : setup := {| bi := 1; bedcomp := false; grains := [1 # 2; 1 # 2]; base := fun _ => [1 # 4; 3 # 4]; bedp := bed167 |}.
Definition s167 : state := {| air := [zeros]; sand := [cell167; cell167; cell167]; oldCu := [zeros]; oldCuf := [zeros]; oldw := fun _ => [0] |}.
Definition s167b : state := {| air := [zeros; zeros]; sand := [cell167b; cell167b; cell167b]; oldCu := [zeros; zeros]; oldCuf := [zeros; zeros]; oldw := fun _ => [0; 0] |}.
Lemma state167 : sound_state 1 k167 s167.
Proof.
  split; [reflexivity|]. split; [intros a Ha i _; cbn in Ha; members; vm_compute; discriminate|]. split; [reflexivity|].
  assert (P : sound_layers 1 (Bed_Model.mass cell167)).
  { split; [discriminate|]. split; [intros l Hl; cbn in Hl; members; reflexivity|]. split; [|intros l Hl; cbn in Hl; members; reflexivity]. intros l Hl x Hx; cbn in Hl; members; cbn in Hx; members; vm_compute; discriminate. }
  intros c Hc. cbn [sand s167 In] in Hc. members; exact P.
Qed.
Lemma state167b : sound_state 2 k167 s167b.
Proof.
  split; [reflexivity|]. split; [intros a Ha i _; cbn in Ha; members; vm_compute; discriminate|]. split; [reflexivity|].
  assert (P : sound_layers 2 (Bed_Model.mass cell167b)).
  { split; [discriminate|]. split; [intros l Hl; cbn in Hl; members; reflexivity|]. split; [|intros l Hl; cbn in Hl; members; reflexivity]. intros l Hl x Hx; cbn in Hl; members; cbn in Hx; members; vm_compute; discriminate. }
  intros c Hc. cbn [sand s167b In] in Hc. members; exact P.
Qed.
Lemma gust_steady u q q' : 0 <= u -> 0 <= q -> steady_wind sweep k167 (gust u q q').
Proof.
  intros Hu Hq. split; [apply case_rect|]. split; [intros r c _ _; reflexivity|]. split; [intros r c _ _; exact Hu|]. split; [intros _ c _; reflexivity|]. split; [apply case_ends; lra|].
  split; [apply sweep_exact, Hu|]. intros i _. exact Hq.
Qed.
(** Whether both steps can be done, the fraction converges and the sand is over the inner cell after the second; whether it then changes by what the two ends of the step say, with the speed of the first step at
    the start or with that of the second. *)
Definition agrees (k : cfg) (f : flow) (w1 w2 : wind) (full v1 v2 : nat -> Q) (o1 o2 : outcome) (r c : nat) : bool :=
  let j := (r * S (nx k) + c)%nat in
  Qeq_bool (area (speed w2) r c * (at_cell k (ct o2) r c - at_cell k (ct o1) r c)) (alpha k * gain k (speed w2) w2 (full j) (v2 j) (ct o2) r c + (1 - alpha k) * gain k f w1 (full j) (v1 j) (ct o1) r c).
Definition good_pair (k : cfg) (e : setup) (s : state) (ws1 ws2 : list wind) (i : nat) (w1 w2 : wind) : option (bool * bool) :=
  match run sweep k e false s [Some ws1] with
  | Ok (Some (s1, [os1])) =>
    match run sweep k e false s1 [Some ws2] with
    | Ok (Some (_, [os2])) =>
      match nth_error os1 i, nth_error os2 i with
      | Some o1, Some o2 =>
        if converged o2 && Qltb 0 (ct o2 1%nat)
        then Some (agrees k (speed w1) w1 w2 (fullness os1 ws2) (fun j => nth i (oldw s1 j) 0) (weight o2) o1 o2 0 1, agrees k (speed w2) w1 w2 (fullness os1 ws2) (fun j => nth i (oldw s1 j) 0) (weight o2) o1 o2 0 1) else None
      | _, _ => None
      end
    | _ => None
    end
  | _ => None
  end.
Lemma calm_before sp k e rest s r : run sp k e false s rest = Ok (Some r) -> forall n, run sp k e false s (repeat None n ++ rest) = Ok (Some (fst r, repeat [] n ++ snd r)).
Proof. intros H. induction n as [|n IH]; cbn [repeat app]. rewrite H. destruct r; reflexivity. cbn [run]. rewrite IH. reflexivity. Qed.
Lemma pair_found (k : cfg) e s ws1 ws2 i w1 w2 b b' n : k = k167 -> good_pair k e s ws1 ws2 i w1 w2 = Some (b, b') ->
  exists s1 s2 os1 os2 o1 o2, two_steps sweep k e false s s1 s2 ws1 ws2 n os1 os2 /\ nth_error os1 i = Some o1 /\ nth_error os2 i = Some o2 /\ converged o2 = true /\ airborne k o2 /\
    agrees k (speed w1) w1 w2 (fullness os1 ws2) (fun j => nth i (oldw s1 j) 0) (weight o2) o1 o2 0 1 = b /\ agrees k (speed w2) w1 w2 (fullness os1 ws2) (fun j => nth i (oldw s1 j) 0) (weight o2) o1 o2 0 1 = b'.
Proof.
  intros Hk H. unfold good_pair in H. destruct (run sweep k e false s [Some ws1]) as [[[s1 [|os1 [|? ?]]]|]|] eqn:E1; try discriminate.
  destruct (run sweep k e false s1 [Some ws2]) as [[[s2 [|os2 [|? ?]]]|]|] eqn:E2; try discriminate. destruct (nth_error os1 i) as [o1|] eqn:N1; [|discriminate]. destruct (nth_error os2 i) as [o2|] eqn:N2; [|discriminate].
  destruct (converged o2 && Qltb 0 (ct o2 1%nat)) eqn:B; [|discriminate]. apply andb_prop in B. destruct B as (B0 & B1). injection H as H H'.
  exists s1, s2, os1, os2, o1, o2. split; [|split; [exact N1|]; split; [exact N2|]; split; [exact B0|]; split; [|split; [exact H | exact H']]].
  - split; [exact E1|]. apply one_step in E1. cbn [run]. rewrite E1. cbn [bind]. rewrite (calm_before sweep k e _ _ _ E2 n). reflexivity.
  - subst k. intros r c (Hr & H1 & H2). cbn in Hr, H2. assert (r = 0%nat) by lia. subst r. destruct (Qltb_spec 0 (ct o2 1%nat)); [|discriminate]. destruct c as [|[|c]]; try lia; assumption.
Qed.

(** Wind that carries another amount over sand at rest, then a faster one. *)
Lemma pair167 : good_pair k167 e167 s167 [gust 1 4 2] [gust 2 4 4] 0 (gust 1 4 2) (gust 2 4 4) = Some (false, true).
Proof. vm_compute. reflexivity. Qed.
(** The wind of the second step is twice as fast as that of the first: with the speed of the first for the start of the step the sum does not fit. *)
Lemma c167_refuted : exists sp k e s s1 s2 w1 w2 n os1 os2 o1 o2, sensible k /\ trunk k = true /\ alpha k == 1 # 2 /\ open_ends k /\ sound_state 1 k s /\ two_steps sp k e false s s1 s2 [w1] [w2] n os1 os2 /\ os1 = [o1] /\ os2 = [o2] /\
  steady_wind sp k w1 /\ steady_wind sp k w2 /\ converged o2 = true /\ airborne k o2 /\ inside k 0 1 /\
  ~ averaged k (speed w1) w1 w2 (fullness os1 [w2]) (fun j => nth 0 (oldw s1 j) 0) (weight o2) o1 o2 0 1.
Proof.
  destruct (pair_found k167 e167 s167 [gust 1 4 2] [gust 2 4 4] 0 (gust 1 4 2) (gust 2 4 4) _ _ 2 eq_refl pair167) as (s1 & s2 & os1 & os2 & o1 & o2 & H1 & H2 & H3 & H4 & H5 & H6 & _).
  exists sweep, k167, e167, s167, s1, s2, (gust 1 4 2), (gust 2 4 4), 2%nat, os1, os2, o1, o2. split; [apply sensible167|]. split; [reflexivity|]. split; [reflexivity|]. split; [apply open167|].
  split; [exact state167|]. split; [exact H1|]. apply two_steps_inv in H1. destruct H1 as (S1 & S2). apply step_fraction in S1. apply step_fraction in S2.
  destruct S1 as (L1 & _), S2 as (L2 & _). destruct os1 as [|a [|? ?]]; try discriminate. destruct os2 as [|b [|? ?]]; try discriminate. injection H2 as ->. injection H3 as ->.
  split; [reflexivity|]. split; [reflexivity|]. split; [apply gust_steady; lra|]. split; [apply gust_steady; lra|]. split; [exact H4|]. split; [exact H5|]. split; [unfold inside; cbn; lia|].
  intros A. unfold agrees in H6. apply Qeq_bool_iff in A. cbv zeta in H6. congruence.
Qed.
(** Wind that carries other amounts over sand at rest, three calm steps in between. *)
Lemma c167_case : exists s1 s2 os1 os2 o1 o2,
  sensible k167 /\ trunk k167 = true /\ alpha k167 == 1 # 2 /\ open_ends k167 /\ two_steps sweep k167 e167 false s167 s1 s2 [gust 1 4 2] [gust 2 4 4] 3 os1 os2 /\ nth_error os1 0 = Some o1 /\ nth_error os2 0 = Some o2 /\
  steady_wind sweep k167 (gust 2 4 4) /\ converged o2 = true /\ airborne k167 o2 /\ inside k167 0 1 /\
  averaged k167 (speed (gust 2 4 4)) (gust 1 4 2) (gust 2 4 4) (fullness os1 [gust 2 4 4]) (fun j => nth 0 (oldw s1 j) 0) (weight o2) o1 o2 0 1.
Proof.
  destruct (pair_found k167 e167 s167 [gust 1 4 2] [gust 2 4 4] 0 (gust 1 4 2) (gust 2 4 4) _ _ 3 eq_refl pair167) as (s1 & s2 & os1 & os2 & o1 & o2 & H1 & H2 & H3 & H4 & H5 & _ & H6).
  exists s1, s2, os1, os2, o1, o2. split; [apply sensible167|]. split; [reflexivity|]. split; [reflexivity|]. split; [apply open167|]. split; [exact H1|]. split; [exact H2|]. split; [exact H3|]. split; [apply gust_steady; lra|].
  split; [exact H4|]. split; [exact H5|]. split; [unfold inside; cbn; lia|]. apply Qeq_bool_iff. exact H6.
Qed.
(** Two fractions. *)
Definition done_one (x : result (option (state * list (list outcome)))) : bool := match x with Ok (Some (_, [[_; _]])) => true | _ => false end.
Lemma c167_stored_case : exists s1 os o, trunk k167 = true /\ length (grains e167b) = 2%nat /\ sound_state 2 k167 s167b /\ run sweep k167 e167b false s167b [Some [gust 1 4 3; gust 1 2 2]] = Ok (Some (s1, [os])) /\ nth_error os (2 - 1) = Some o /\
  nth (2 - 1) (oldw s1 1) 0 = weight o 1%nat.
Proof.
  assert (D : done_one (run sweep k167 e167b false s167b [Some [gust 1 4 3; gust 1 2 2]]) = true) by (vm_compute; reflexivity).
  destruct (run sweep k167 e167b false s167b [Some [gust 1 4 3; gust 1 2 2]]) as [[[s1 [|[|o1 [|o2 [|? ?]]] [|? ?]]]|]|] eqn:E; try discriminate D.
  exists s1, [o1; o2], o2. split; [reflexivity|]. split; [reflexivity|]. split; [exact state167b|]. split; [exact eq_refl|]. split; [reflexivity|].
  exact (stored_weight sweep 2 k167 e167b false s167b s1 [gust 1 4 3; gust 1 2 2] [o1; o2] eq_refl eq_refl eq_refl ltac:(lia) state167b E o2 eq_refl 1%nat ltac:(cbn; lia)).
Qed.
