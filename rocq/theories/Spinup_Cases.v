(** Concrete cases: fetch, rest and memory. *)
From Coq Require Import QArith Qpower Lia Lqa List Bool Arith Setoid.
From Verif Require Import Base Num Utils_Model Solver_Model Solver_Spec Linear Solver_Proofs Solver_Iter Solver_Balance Solver_Cases Sym_Spec Sym_Proofs Sym_Cases Causal_Spec Causal_Proofs Spinup_Spec Spinup_Proofs Spinup_Runs Spinup_Fetch.
Import ListNotations.
Open Scope Q_scope.

(** Four cells of one metre; the air carries 1 over the first, there is sand everywhere. *)
Definition k159 (tr : bool) (a : Q) : cfg := case_k tr 0 3 a 9 Constant Constant 1.
Definition hundreds : nat -> Q := fun _ => 100.
Definition d159 (l : nat -> Q) : input := case_d tens tens hundreds l.
Lemma posed159 tr l : (forall i, 0 <= l i) -> well_posed (gauss 4) (k159 tr 1) f31 (d159 l) ones.
Proof.
  intros Hl. assert (H1 : sensible (k159 tr 1)) by (apply case_sensible; [discriminate | lia | lra]). destruct (uniform_gathering _ _ _ _ (case_even (k159 tr 1) 1 0)) as (H3 & H4). specialize (H4 H1).
  apply (posed (k159 tr 1)); try assumption; try (cbn; lra). split; [right; left; reflexivity | split; [right; left; reflexivity | reflexivity]].
  apply case_input. intros i. unfold tens, hundreds. specialize (Hl i). repeat split; lra. intros i _. unfold ones. lra.
Qed.
(** The first [n] numbers. *)
Definition is_list (n : nat) (x : nat -> Q) (l : list Q) : Prop := forall i, (i < n)%nat -> x i == nth i l 0.
(** All numbers of an outcome. *)
Definition all_shown (k : cfg) (x : result (option outcome)) : option (list Q * list Q * list Q * bool) := match x with Ok (Some o) => Some (show k (ct o), show k (pickup o), show k (weight o), converged o) | _ => None end.
Lemma show_nth k x i : (i < number_of_cells k)%nat -> nth i (show k x) 0 == x i.
Proof. intros Hi. unfold show. rewrite (nth_indep _ 0 (Qred (x 0%nat))) by (rewrite map_length, seq_length; exact Hi). rewrite (map_nth (fun i => Qred (x i))), seq_nth by exact Hi. apply Qred_correct. Qed.
Lemma all_shown_ok k x a b c t : all_shown k x = Some (a, b, c, t) -> exists o, x = Ok (Some o) /\ converged o = t /\ forall i, (i < number_of_cells k)%nat -> ct o i == nth i a 0 /\ pickup o i == nth i b 0 /\ weight o i == nth i c 0.
Proof. destruct x as [[o|]|]; cbn; try discriminate. intros E. injection E as <- <- <- <-. exists o. split. reflexivity. split. reflexivity. intros i Hi. rewrite !show_nth by exact Hi. repeat split. Qed.
Ltac four i Hi := let Hi' := fresh in assert (Hi' : (i < 4)%nat) by exact Hi; clear Hi; destruct i as [|[|[|[|i]]]]; [| | | |exfalso; lia].

(** ** Fetch *)
Definition some_air : nat -> Q := vec [1; 2; 3; 0].
Lemma some_air_nn i : 0 <= some_air i.
Proof. unfold some_air, vec. destruct i as [|[|[|[|[|i]]]]]; cbn; lra. Qed.
Lemma c159_case : well_posed (gauss 4) (k159 true 1) f31 (d159 some_air) ones /\ no_side_wind_in_1d (k159 true 1) f31 /\ uniform_wind (k159 true 1) f31 1 0 /\ equal_cells (k159 true 1) f31 1 /\ enters (k159 true 1) f31 (d159 some_air) 1 /\
  rising (k159 true 1) 1 some_air /\ exists o, by_gauss (k159 true 1) f31 (d159 some_air) ones = Ok (Some o) /\ converged o = true /\ rising (k159 true 1) 1 (carries (d159 some_air) (weight o)) /\ is_list 4 (ct o) [1; 13 # 3; 52 # 9; 0].
Proof.
  split; [apply posed159, some_air_nn|]. split; [intros _ c _; reflexivity|]. split; [apply case_even|]. split; [intros r c _ _; reflexivity|]. split; [intros r _; reflexivity|].
  split. { split. intros r Hr. cbn in Hr. replace r with 0%nat by lia. vm_compute. discriminate. intros r c Hr H1 H2. cbn in Hr, H2. replace r with 0%nat by lia. replace c with 1%nat by lia. vm_compute. discriminate. }
  destruct (all_shown_ok (k159 true 1) (by_gauss (k159 true 1) f31 (d159 some_air) ones) [1; 13 # 3; 52 # 9; 0] [9; 17 # 3; 38 # 9; 10] [1; 1; 1; 1] true) as (o & E & Hc & H). { vm_compute. reflexivity. }
  exists o. split. exact E. split. exact Hc. split.
  - split; intros r; [intros Hr | intros c Hr H1 H2]; cbn in Hr; replace r with 0%nat by lia; unfold at_cell, carries; [|cbn in H2; replace c with 1%nat by lia].
    destruct (H 1%nat ltac:(cbn; lia)) as (_ & _ & ->). vm_compute. discriminate. destruct (H 1%nat ltac:(cbn; lia)) as (_ & _ & ->). destruct (H 2%nat ltac:(cbn; lia)) as (_ & _ & ->). vm_compute. discriminate.
  - intros i Hi. apply H, Hi.
Qed.
Lemma c159_steady_case : well_posed (gauss 4) (k159 false 1) f31 (d159 zeros) ones /\ no_side_wind_in_1d (k159 false 1) f31 /\ even_wind (k159 false 1) f31 1 /\ equal_cells (k159 false 1) f31 1 /\ enters (k159 false 1) f31 (d159 zeros) 1 /\
  exists o, by_gauss (k159 false 1) f31 (d159 zeros) ones = Ok (Some o) /\ converged o = true /\ (forall r c, inside (k159 false 1) r c -> at_cell (k159 false 1) (carries (d159 zeros) (weight o)) r c == 10) /\ is_list 4 (ct o) [1; 11 # 2; 31 # 4; 0].
Proof.
  split; [apply posed159; intros; unfold zeros; lra|]. split; [intros _ c _; reflexivity|]. split; [split; [reflexivity | intros r c _ _; reflexivity]|]. split; [intros r c _ _; reflexivity|]. split; [intros r _; reflexivity|].
  destruct (all_shown_ok (k159 false 1) (by_gauss (k159 false 1) f31 (d159 zeros) ones) [1; 11 # 2; 31 # 4; 0] [9; 9 # 2; 9 # 4; 10] [1; 1; 1; 1] true) as (o & E & Hc & H). { vm_compute. reflexivity. }
  exists o. split. exact E. split. exact Hc. split.
  - intros r c (Hr & H1 & H2). cbn in Hr, H2. replace r with 0%nat by lia. unfold at_cell, carries. cbn [Nat.mul Nat.add]. destruct (H c ltac:(cbn; lia)) as (_ & _ & ->). destruct c as [|[|[|c]]]; [lia | reflexivity | reflexivity | lia].
  - intros i Hi. apply H, Hi.
Qed.
Lemma c159_ample_case : well_posed (gauss 4) (k159 true 1) f31 (d159 some_air) ones /\ max_iter (k159 true 1) <> 0%nat /\ ample (k159 true 1) (d159 some_air) ones.
Proof. split; [apply posed159, some_air_nn|]. split. discriminate. intros i _. vm_compute. discriminate. Qed.

(** ** Rest *)
(** Crank-Nicolson. *)
Definition d160 : input := d159 (vec [1; 11 # 2; 31 # 4; 0]).
Lemma c160_case : trunk (k159 true (1 # 2)) = true /\ well_posed (gauss 4) (steady (k159 true (1 # 2))) f31 (d159 zeros) ones /\ exact_solver 4 (matrix (k159 true (1 # 2)) f31) (gauss 4) /\ max_iter (k159 true (1 # 2)) <> 0%nat /\ no_side_wind_in_1d (k159 true (1 # 2)) f31 /\
  exists o, by_gauss (steady (k159 true (1 # 2))) f31 (d159 zeros) ones = Ok (Some o) /\ converged o = true /\ resting (k159 true (1 # 2)) (d159 zeros) o d160 /\
  all_shown (k159 true (1 # 2)) (by_gauss (k159 true (1 # 2)) f31 d160 ones) = Some ([1; 11 # 2; 31 # 4; 0], [9; 9 # 2; 9 # 4; 10], [1; 1; 1; 1], true).
Proof.
  assert (H1 : sensible (k159 true (1 # 2))) by (apply case_sensible; [discriminate | lia | lra]). destruct (uniform_gathering _ _ _ _ (case_even (k159 true (1 # 2)) 1 0)) as (H3 & H4). specialize (H4 H1).
  split. reflexivity. split. { assert (W := posed159 false zeros ltac:(intros; unfold zeros; lra)). destruct W as (W1 & W2 & W3 & W4 & W5 & W6 & W7 & W8 & W9 & W10 & W11). repeat (split; [first [assumption | intros E; discriminate E]|]). assumption. }
  split. { apply (gauss_exact (k159 true (1 # 2)) f31); try assumption. apply case_rect. split; [right; left; reflexivity | split; [right; left; reflexivity | reflexivity]]. }
  split. discriminate. split; [intros _ c _; reflexivity|].
  destruct (all_shown_ok (steady (k159 true (1 # 2))) (by_gauss (steady (k159 true (1 # 2))) f31 (d159 zeros) ones) [1; 11 # 2; 31 # 4; 0] [9; 9 # 2; 9 # 4; 10] [1; 1; 1; 1] true) as (o & E & Hc & H). { vm_compute. reflexivity. }
  exists o. split. exact E. split. exact Hc. split; [|vm_compute; reflexivity].
  intros i Hi. destruct (H i Hi) as (-> & _ & ->). four i Hi; vm_compute; repeat split.
Qed.
Lemma c160_only_case : trunk (k159 true 1) = true /\ well_posed (gauss 4) (k159 true 1) f31 d160 ones /\ exact_solver 4 (matrix (steady (k159 true 1)) f31) (gauss 4) /\ offshore (k159 true 1) <> Noflux /\
  exists o, by_gauss (k159 true 1) f31 d160 ones = Ok (Some o) /\ converged o = true /\ forall i, (i < 4)%nat -> ct o i == lCt d160 i.
Proof.
  split. reflexivity. split. { apply posed159. intros i. unfold vec. destruct i as [|[|[|[|[|i]]]]]; cbn; lra. }
  split. { destruct (posed159 false zeros ltac:(intros; unfold zeros; lra)) as (_ & _ & _ & _ & _ & _ & _ & _ & _ & W & _). exact W. } split. discriminate.
  destruct (all_shown_ok (k159 true 1) (by_gauss (k159 true 1) f31 d160 ones) [1; 11 # 2; 31 # 4; 0] [9; 9 # 2; 9 # 4; 10] [1; 1; 1; 1] true) as (o & E & Hc & H). { vm_compute. reflexivity. }
  exists o. split. exact E. split. exact Hc. intros i Hi. apply (H i Hi).
Qed.

(** ** Memory *)
(** A step from given air, with ample sand, and steps that follow it. *)
Definition nothing : outcome := {| ct := zeros; pickup := zeros; weight := zeros; converged := false |}.
Definition step_from (l : nat -> Q) : taken :=
  {| wind_of := f31; input_of := d159 l; weights_of := ones; result_of := match by_gauss (k159 true 1) f31 (d159 l) ones with Ok (Some o) => o | _ => nothing end |}.
Fixpoint airs (l : nat -> Q) (m : nat) : nat -> Q := match m with O => l | S m => vec (show (k159 true 1) (ct (result_of (step_from (airs l m))))) end.
Definition steps_from (l : nat -> Q) (m : nat) : taken := step_from (airs l m).
Lemma step_ok l : (forall i, 0 <= l i) -> solved (gauss 4) (k159 true 1) (step_from l) /\ forall i, (i < 4)%nat -> weight (result_of (step_from l)) i == 1.
Proof.
  intros Hl. pose proof (posed159 true l Hl) as W. destruct (ample_kept (gauss 4) (k159 true 1) f31 (d159 l) ones W ltac:(discriminate) ltac:(intros i _; vm_compute; discriminate)) as (o & E & Hc & Hw).
  unfold solved. cbn [step_from wind_of input_of weights_of result_of]. unfold by_gauss. change (number_of_cells (k159 true 1)) with 4%nat. rewrite E. repeat split; try apply W; try assumption.
Qed.
Lemma airs_nn l m : (forall i, 0 <= l i) -> forall i, 0 <= airs l m i.
Proof.
  intros Hl. induction m; intros i. apply Hl. cbn [airs]. unfold vec. destruct (Nat.lt_ge_cases i 4) as [Hi|Hi].
  - rewrite show_nth by exact Hi. destruct (step_ok (airs l m) IHm) as ((W & E & Hc) & _). destruct (posed_solution _ _ _ _ _ _ W E Hc) as (P & _). apply P. exact Hi.
  - rewrite nth_overflow. lra. unfold show. rewrite map_length, seq_length. exact Hi.
Qed.
Lemma steps_ok l : (forall i, 0 <= l i) -> forall m, solved (gauss 4) (k159 true 1) (steps_from l m) /\ forall i, (i < 4)%nat -> carries (input_of (steps_from l m)) (weight (result_of (steps_from l m))) i == 10.
Proof. intros Hl m. destruct (step_ok (airs l m) (airs_nn l m Hl)) as (A & B). split. exact A. intros i Hi. unfold carries, steps_from. rewrite (B i Hi). reflexivity. Qed.
Lemma steps_follow l n : follow (k159 true 1) n (steps_from l).
Proof. intros m i _ Hi. cbn [steps_from step_from input_of d159 case_d lCt airs]. unfold vec. rewrite show_nth by exact Hi. reflexivity. Qed.
Lemma steps_wind l m : wind_of (steps_from l m) = f31.
Proof. reflexivity. Qed.
Lemma steps_Cu0 l m i : Cu0 (input_of (steps_from l m)) i = 10.
Proof. reflexivity. Qed.
(** Two runs of four steps, one from air without sand and one from dusty air. *)
Definition dusty : nat -> Q := vec [1; 20; 5; 0].
Lemma dusty_nn i : 0 <= dusty i.
Proof. unfold dusty, vec. destruct i as [|[|[|[|[|i]]]]]; cbn; lra. Qed.
Lemma zeros_nn i : 0 <= zeros i.
Proof. unfold zeros. lra. Qed.
Lemma c161_case : trunk (k159 true 1) = true /\ (forall m, (m <= 3)%nat -> solved (gauss 4) (k159 true 1) (steps_from zeros m)) /\ (forall m, (m <= 3)%nat -> solved (gauss 4) (k159 true 1) (steps_from dusty m)) /\ follow (k159 true 1) 3 (steps_from zeros) /\ follow (k159 true 1) 3 (steps_from dusty) /\
  (forall m, (m <= 3)%nat -> same_weather (k159 true 1) (steps_from zeros m) (steps_from dusty m)) /\ (forall m, (m <= 3)%nat -> same_grid (k159 true 1) f31 (wind_of (steps_from zeros m))) /\
  difference (k159 true 1) f31 zeros dusty == 25 /\ difference (k159 true 1) f31 (ct (result_of (steps_from zeros 3))) (ct (result_of (steps_from dusty 3))) == 155 # 243.
Proof.
  split. reflexivity. split. intros m _. apply (steps_ok zeros zeros_nn m). split. intros m _. apply (steps_ok dusty dusty_nn m). split. apply steps_follow. split. apply steps_follow.
  split. { intros m _. split. rewrite !steps_wind. reflexivity. intros i Hi. split. rewrite !steps_Cu0. reflexivity. destruct (steps_ok zeros zeros_nn m) as (_ & A), (steps_ok dusty dusty_nn m) as (_ & B). rewrite (A i Hi), (B i Hi). reflexivity. }
  split. intros m _ r c _ _. rewrite steps_wind. reflexivity. split. reflexivity.
  vm_compute. reflexivity.
Qed.
(** The steady state that these steps approach. *)
Lemma c161_steady_case : well_posed (gauss 4) (steady (k159 true 1)) f31 (d159 zeros) ones /\ (forall m, (m <= 3)%nat -> solved (gauss 4) (k159 true 1) (steps_from zeros m)) /\ follow (k159 true 1) 3 (steps_from zeros) /\
  (forall m, (m <= 3)%nat -> wind_of (steps_from zeros m) = f31) /\ (forall i, (i < 4)%nat -> lCt (input_of (steps_from zeros 0)) i == 0) /\
  exists o, by_gauss (steady (k159 true 1)) f31 (d159 zeros) ones = Ok (Some o) /\ converged o = true /\ is_list 4 (ct o) [1; 11 # 2; 31 # 4; 0] /\
    (forall m i, (m <= 3)%nat -> (i < 4)%nat -> Cu0 (input_of (steps_from zeros m)) i == Cu0 (d159 zeros) i /\ carries (input_of (steps_from zeros m)) (weight (result_of (steps_from zeros m))) i == carries (d159 zeros) (weight o) i) /\
    show (k159 true 1) (ct (result_of (steps_from zeros 0))) = [1; 11 # 3; 41 # 9; 0] /\ show (k159 true 1) (ct (result_of (steps_from zeros 3))) = [1; 440 # 81; 1838 # 243; 0].
Proof.
  split. apply (posed159 false zeros zeros_nn). split. intros m _. apply (steps_ok zeros zeros_nn m). split. apply steps_follow. split. intros m _. apply steps_wind. split. intros i _. reflexivity.
  destruct (all_shown_ok (steady (k159 true 1)) (by_gauss (steady (k159 true 1)) f31 (d159 zeros) ones) [1; 11 # 2; 31 # 4; 0] [9; 9 # 2; 9 # 4; 10] [1; 1; 1; 1] true) as (o & E & Hc & H). { vm_compute. reflexivity. }
  exists o. split. exact E. split. exact Hc. split. intros i Hi. apply (H i Hi). split. { intros m i _ Hi. split. rewrite steps_Cu0. reflexivity. destruct (steps_ok zeros zeros_nn m) as (_ & A). rewrite (A i Hi). unfold carries. destruct (H i Hi) as (_ & _ & ->). four i Hi; reflexivity. }
  split; vm_compute; reflexivity.
Qed.
(** More sand in the air before the step. *)
Lemma c162_case : well_posed (gauss 4) (k159 true 1) f31 (d159 some_air) ones /\ well_posed (gauss 4) (k159 true 1) f31 (d159 dusty) ones /\ all_within 4 (lCt (d159 some_air)) (lCt (d159 dusty)) /\ all_within 4 (Cu0 (d159 some_air)) (Cu0 (d159 dusty)) /\
  exists o o', by_gauss (k159 true 1) f31 (d159 some_air) ones = Ok (Some o) /\ by_gauss (k159 true 1) f31 (d159 dusty) ones = Ok (Some o') /\ converged o = true /\ converged o' = true /\
    all_within 4 (carries (d159 some_air) (weight o)) (carries (d159 dusty) (weight o')) /\ (forall i, (i < 4)%nat -> Cu0 (d159 dusty) i == Cu0 (d159 some_air) i /\ carries (d159 dusty) (weight o') i == carries (d159 some_air) (weight o) i) /\ is_list 4 (ct o) [1; 13 # 3; 52 # 9; 0] /\ is_list 4 (ct o') [1; 31 # 3; 76 # 9; 0].
Proof.
  split. apply posed159, some_air_nn. split. apply posed159, dusty_nn. split. intros i Hi. four i Hi; vm_compute; discriminate. split. intros i _. vm_compute. discriminate.
  destruct (all_shown_ok (k159 true 1) (by_gauss (k159 true 1) f31 (d159 some_air) ones) [1; 13 # 3; 52 # 9; 0] [9; 17 # 3; 38 # 9; 10] [1; 1; 1; 1] true) as (o & E & Hc & H). { vm_compute. reflexivity. }
  destruct (all_shown_ok (k159 true 1) (by_gauss (k159 true 1) f31 (d159 dusty) ones) [1; 31 # 3; 76 # 9; 0] [9; -1 # 3; 14 # 9; 10] [1; 1; 1; 1] true) as (o' & E' & Hc' & H'). { vm_compute. reflexivity. }
  exists o, o'. split. exact E. split. exact E'. split. exact Hc. split. exact Hc'. split; [|split; [|split; intros i Hi; [apply (H i Hi) | apply (H' i Hi)]]].
  - intros i Hi. unfold carries. destruct (H i Hi) as (_ & _ & ->), (H' i Hi) as (_ & _ & ->). four i Hi; vm_compute; discriminate.
  - intros i Hi. split. reflexivity. unfold carries. destruct (H i Hi) as (_ & _ & ->), (H' i Hi) as (_ & _ & ->). reflexivity.
Qed.
