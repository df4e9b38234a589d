(** Concrete cases for other units. *)
From Coq Require Import QArith Lia Lqa List Bool Arith Setoid.
From Verif Require Import Base Num Utils_Model Bed_Model Solver_Model Solver_Spec Linear Solver_Proofs Solver_Iter Solver_Balance Solver_Cases Run_Model Run_Spec Run_Cases Units_Spec Units_Proofs Units_Run.
Import ListNotations.
Open Scope Q_scope.

(** Centimetres, minutes and grams. *)
Definition small_units : units := {| metre := 100; second := 1 # 60; kilogram := 1000 |}.
Lemma small_proper : proper small_units.
Proof. repeat split; reflexivity. Qed.

(** A matrix with non-positive elements off the diagonal and positive weighted columns has one solution, which elimination finds. *)
Definition checked (n : nat) (A : nat -> nat -> Q) (v : nat -> Q) : bool :=
  forallb (fun i => Qltb 0 (v i) && Qltb 0 (sumn n (fun j => v j * A j i)) && forallb (fun j => Nat.eqb i j || Qle_bool (A i j) 0) (seq 0 n)) (seq 0 n).
Lemma checked_ok n A v : checked n A v = true -> offdiag_nonpos n A /\ columns_positive n A v.
Proof.
  unfold checked. rewrite forallb_forall. intros H.
  assert (G : forall i, (i < n)%nat -> 0 < v i /\ 0 < sumn n (fun j => v j * A j i) /\ forall j, (j < n)%nat -> i <> j -> A i j <= 0).
  { intros i Hi. specialize (H i ltac:(apply in_seq; lia)). apply andb_true_iff in H as (H & H3). apply andb_true_iff in H as (H1 & H2).
    split; [destruct (Qltb_spec 0 (v i)); [assumption | discriminate]|]. split; [destruct (Qltb_spec 0 (sumn n (fun j => v j * A j i))); [assumption | discriminate]|].
    intros j Hj Hn. rewrite forallb_forall in H3. specialize (H3 j ltac:(apply in_seq; lia)). apply orb_true_iff in H3 as [E | E]. apply Nat.eqb_eq in E. contradiction. apply Qle_bool_iff, E. }
  split. intros i j Hi Hj Hn. apply (G i Hi); assumption. split. intros i Hi. apply (G i Hi). intros j Hj. apply (G j Hj).
Qed.
Lemma one_of n A v : offdiag_nonpos n A -> columns_positive n A v -> one_solution n A /\ exact_solver n A (gauss n).
Proof.
  intros H1 H2. split. intros y. exists (gauss n A y). split. apply (gauss_solves n A v y H1 H2). intros x' Hx i Hi. apply (unique_solution n A v y x' (gauss n A y) H1 H2 Hx (gauss_solves n A v y H1 H2) i Hi).
  intros y _. apply (gauss_solves n A v y H1 H2).
Qed.
Lemma exact_checked u k f v v' : checked (number_of_cells k) (matrix k f) v = true -> checked (number_of_cells k) (matrix (cfg_in u k) (flow_in u f)) v' = true ->
  exact_in u (gauss (number_of_cells k)) (gauss (number_of_cells k)) k f.
Proof.
  intros H H'. apply checked_ok in H as (H1 & H2). apply checked_ok in H' as (H3 & H4). destruct (one_of _ _ _ H1 H2). destruct (one_of _ _ _ H3 H4). split; [assumption|]. split; assumption.
Qed.
(** Weights that fall along the wind. *)
Definition falling (k : cfg) : nat -> Q := fun i => inject_Z (Z.of_nat ((S (nx k) - i mod S (nx k)) * (ny k + 2 - i / S (nx k)))).
Definition steep (k : cfg) : nat -> Q := fun i => inject_Z (1000 ^ Z.of_nat (nx k - i mod S (nx k))).

(** Two classes on three rows, the second of them limited by the sand in the bed; slanting wind. *)
Definition k138 : cfg := {| trunk := true; ny := 2; nx := 2; dt := 1; T := 2; alpha := 1; max_error := 1 # 2; max_iter := 9; offshore := Constant; onshore := Uniform; lateral := Constant;
     offshore_flux := 1; onshore_flux := 0; constant_offshore_flux := 3; constant_onshore_flux := 0 |}.
Definition f138 : flow := case_f (even 1) (even 1).
Definition d138 : input := case_d tens tens tens ones.
Definition d138b : input := case_d tens tens zeros ones.
Definition numbers (k : cfg) (x : result (option (list outcome * (nat -> list Q)))) := match x with Ok (Some (os, _)) => Some (map (fun o => (show k (ct o), show k (Solver_Model.pickup o))) os) | _ => None end.
Lemma c138_case : proper small_units /\ trunk k138 = true /\ (forall g, In g [(f138, d138); (f138, d138b)] -> exact_in small_units (gauss 9) (gauss 9) k138 (fst g)) /\
  numbers k138 (solve (gauss 9) k138 true false [1 # 2; 1 # 2] (fun _ => []) [(f138, d138); (f138, d138b)]) =
    Some [([3; 7 # 2; 0; 3; 20 # 7; 20 # 7; 3; 7 # 2; 0], [1; 3 # 4; 5 # 2; 1; 15 # 14; 15 # 14; 1; 3 # 4; 5 # 2]);
          ([3; 11 # 4; 0; 3; 229 # 98; 229 # 98; 3; 11 # 4; 0], [0; 0; 0; 0; 0; 0; 0; 0; 0])] /\
  numbers k138 (solve (gauss 9) (cfg_in small_units k138) true false [1 # 2; 1 # 2] (fun _ => []) (map (class_in small_units) [(f138, d138); (f138, d138b)])) =
    Some [([3 # 10; 7 # 20; 0; 3 # 10; 2 # 7; 2 # 7; 3 # 10; 7 # 20; 0], [1 # 10; 3 # 40; 1 # 4; 1 # 10; 3 # 28; 3 # 28; 1 # 10; 3 # 40; 1 # 4]);
          ([3 # 10; 11 # 40; 0; 3 # 10; 229 # 980; 229 # 980; 3 # 10; 11 # 40; 0], [0; 0; 0; 0; 0; 0; 0; 0; 0])].
Proof.
  split; [apply small_proper|]. split; [reflexivity|]. split. intros g [<- | [<- | []]]; apply (exact_checked small_units k138 f138 (falling k138) (falling k138)); vm_compute; reflexivity.
  split. vm_compute. reflexivity. vm_compute. reflexivity.
Qed.

(** Steady state. *)
Definition k139 (b : boundary) : cfg := {| trunk := false; ny := 2; nx := 2; dt := 1; T := 2; alpha := 1; max_error := 1 # 2; max_iter := 9; offshore := Constant; onshore := Constant; lateral := b;
     offshore_flux := 1; onshore_flux := 0; constant_offshore_flux := 3; constant_onshore_flux := 0 |}.
Definition f139 : flow := case_f (even 1) (even 0).
Lemma c139_case : proper small_units /\ trunk (k139 Circular) = false /\ lateral (k139 Circular) = Circular /\ exact_in small_units (gauss 9) (gauss 9) (k139 Circular) f139 /\
  numbers (k139 Circular) (solve (gauss 9) (k139 Circular) true false [1] (fun _ => []) [(f139, d138)]) = Some [([3; 16 # 3; 0; 3; 16 # 3; 0; 3; 16 # 3; 0], [7 # 2; 7 # 3; 5; 7 # 2; 7 # 3; 5; 7 # 2; 7 # 3; 5])].
Proof.
  split; [apply small_proper|]. split; [reflexivity|]. split; [reflexivity|]. split. apply (exact_checked small_units (k139 Circular) f139 (falling (k139 Circular)) (steep (k139 Circular))); vm_compute; reflexivity.
  vm_compute. reflexivity.
Qed.
Lemma c139_constant : exists u sp sp' k t0 b dist init fs, proper u /\ trunk k = false /\ lateral k = Constant /\ (forall g, In g fs -> exact_in u sp sp' k (fst g)) /\
  ~ answer_in u (number_of_cells k) (solve sp k t0 b dist init fs) (solve sp' (cfg_in u k) t0 b dist init (map (class_in u) fs)).
Proof.
  exists small_units, (gauss 9), (gauss 9), (k139 Constant), true, false, [1], (fun _ => []), [(f139, d138)].
  split; [apply small_proper|]. split; [reflexivity|]. split; [reflexivity|]. split. intros g [<- | []]. apply (exact_checked small_units (k139 Constant) f139 (falling (k139 Constant)) (steep (k139 Constant))); vm_compute; reflexivity.
  intros H. assert (E : forall o o', outcome_in small_units 9 o o' -> Qeq_bool (ct o' 1%nat) ((1 # 10) * ct o 1%nat) = true).
  { intros o o' (_ & G). apply Qeq_eq_bool. destruct (G 1%nat ltac:(lia)) as (G1 & _). unfold in_unit in G1. rewrite G1. change (per_area small_units) with (1000 / (100 * 100)). apply Qmult_comp; reflexivity. }
  revert H. change (number_of_cells (k139 Constant)) with 9%nat.
  destruct (solve (gauss 9) (k139 Constant) true false [1] (fun _ => []) [(f139, d138)]) as [[[[|o [|o2 os]] w]|]|x] eqn:S; try (vm_compute in S; discriminate S).
  destruct (solve (gauss 9) (cfg_in small_units (k139 Constant)) true false [1] (fun _ => []) (map (class_in small_units) [(f139, d138)])) as [[[[|o' [|o2' os']] w']|]|x'] eqn:S'; try (vm_compute in S'; discriminate S').
  intros (H & _). inversion H as [|? ? ? ? H1 _]; subst. specialize (E _ _ H1).
  assert (F : numbers (k139 Constant) (Ok (Some ([o], w))) = Some [([3; 5; 0; 3; 16 # 3; 0; 3; 5; 0], [7 # 2; 5 # 2; 5; 7 # 2; 7 # 3; 5; 7 # 2; 5 # 2; 5])]) by (rewrite <- S; vm_compute; reflexivity).
  assert (F' : numbers (k139 Constant) (Ok (Some ([o'], w'))) = Some [([3 # 10; 30; 0; 3 # 10; 8 # 15; 0; 3 # 10; 30; 0], [7 # 20; - 29 # 2; 1 # 2; 7 # 20; 7 # 30; 1 # 2; 7 # 20; - 29 # 2; 1 # 2])]) by (rewrite <- S'; vm_compute; reflexivity).
  clear - E F F'. unfold numbers, show in F, F'. cbn in F, F'. injection F as _ F _. injection F' as _ F' _.
  apply Qeq_bool_eq in E. rewrite <- (Qred_correct (ct o 1%nat)), <- (Qred_correct (ct o' 1%nat)) in E. rewrite F, F' in E. discriminate E.
Qed.

(** A run. *)
Definition e140 : setup := e123.
(** The state of [s123] in other units. *)
Definition scaled_cell (u : units) (c : bedcell) : bedcell :=
  {| Bed_Model.mass := map (map (Qmult (per_area u))) (Bed_Model.mass c); Bed_Model.pickup := map (Qmult (per_area u)) (Bed_Model.pickup c); zb := metre u * zb c; zs := metre u * zs c |}.
Definition scaled_state (u : units) (s : state) : state :=
  {| air := map (fun a i => per_area u * a i) (air s); sand := map (scaled_cell u) (sand s); oldCu := map (fun a i => per_area u * a i) (oldCu s); oldCuf := map (fun a i => per_area u * a i) (oldCuf s); oldw := oldw s |}.
Lemma scaled_times c l : Forall2 (in_unit c) l (map (Qmult c) l).
Proof. induction l; constructor. reflexivity. exact IHl. Qed.
Lemma scaled_fields c n l : Forall2 (field_in c n) l (map (fun a i => c * a i) l).
Proof. induction l; constructor. intros i _. reflexivity. exact IHl. Qed.
Lemma scaled_in u n s : state_in u n s (scaled_state u s).
Proof.
  split; [apply scaled_fields|]. split. cbn [sand scaled_state]. induction (sand s) as [|c cs IH]; constructor; [|exact IH].
  { split; [|split; [apply scaled_times | split; reflexivity]]. cbn. induction (Bed_Model.mass c); constructor. apply scaled_times. exact IHl. }
  split; [apply scaled_fields|]. split; [apply scaled_fields|]. intros i _. apply tm_refl.
Qed.
Definition levels (x : result (option (state * list (list outcome)))) := match x with Ok (Some (s, _)) => Some (map (fun c => Qred (zb c)) (sand s)) | _ => None end.
Lemma c140_case : proper small_units /\ trunk k123 = true /\ state_in small_units 4 s123 (scaled_state small_units s123) /\ length (sand s123) = number_of_cells k123 /\
  (forall ws w, In (Some ws) weather123 -> In w ws -> exact_in small_units (gauss 4) (gauss 4) k123 (speed w)) /\
  levels (run (gauss 4) k123 e123 true s123 weather123) = Some [497 # 500; 249 # 250; 299 # 300; 497 # 500] /\
  levels (run (gauss 4) (cfg_in small_units k123) (setup_in small_units e123) true (scaled_state small_units s123) (weather_in small_units weather123)) = Some [497 # 5; 498 # 5; 299 # 3; 497 # 5].
Proof.
  split; [apply small_proper|]. split; [reflexivity|]. split; [apply scaled_in|]. split; [reflexivity|]. split.
  { intros ws w [E | [E | []]]; [|discriminate]. injection E as <-. intros [<- | [<- | []]]; apply (exact_checked small_units k123 f31 (falling k123) (falling k123)); vm_compute; reflexivity. }
  split. vm_compute. reflexivity. vm_compute. reflexivity.
Qed.
