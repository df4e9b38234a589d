(** Concrete cases: changes downwind. *)
From Coq Require Import QArith Lia Lqa List Bool Arith Setoid.
From Verif Require Import Base Num Utils_Model Utils_Spec Bed_Model Bed_Spec Solver_Model Solver_Spec Linear Solver_Proofs Solver_Iter Solver_Balance Solver_Cases Run_Model Run_Spec Run_Proofs Run_Whole Run_Cases Causal_Spec Causal_Proofs Causal_Run.
Import ListNotations.
Open Scope Q_scope.

(** Another value from column [n] onwards (one row). *)
Definition from (n : nat) (x y : Q) : nat -> Q := fun i => if Nat.ltb i n then x else y.
(** Column 2 is bare in both; behind it there is another wind, another capacity, another bed and other air. *)
Definition f142 : flow := case_f (fun _ j => from 3 1 2 j) (even 0).
Definition d142 : input := case_d (from 3 10 4) (from 3 10 4) (fun i => if Nat.ltb i 3 then spot i else 0) (from 3 0 7).
Lemma c142_holds : well_posed (gauss 5) (k31 12) f142 d142 ones.
Proof.
  assert (H1 : sensible (k31 12)) by (apply case_sensible; [discriminate | lia | lra]). assert (H2 : rectangular (k31 12) f142) by apply case_rect.
  assert (Ho : onshore_wind (k31 12) f142) by (intros r j _ _; cbn; unfold from; destruct (Nat.ltb j 3); lra).
  assert (H3 : lateral_uniform (k31 12) f142) by (intros r j _ _; reflexivity). pose proof (onshore_gathers _ _ H1 Ho) as H4.
  assert (H5 : prescribed_ends (k31 12)) by (split; [right; left; reflexivity | split; [right; left; reflexivity | reflexivity]]).
  unfold well_posed. split; [exact H1|]. split; [exact H2|]. split; [exact H3|]. split; [exact H4|]. split; [left; exact H5|]. split; [intros _; reflexivity|]. split.
  { apply case_input. intros i. unfold from, spot. destruct (Nat.ltb i 3), (Nat.eqb i 2); repeat split; lra. }
  split; [apply case_ends; lra|]. split; [reflexivity|]. split; [apply (gauss_exact (k31 12) f142); assumption|]. intros i _. unfold ones. lra.
Qed.
Ltac upto := let r := fresh "r" in let j := fresh "j" in let Hr := fresh in let Hj := fresh in
  intros r j Hr Hj; cbn in Hr; destruct r as [|r]; [|lia]; destruct j as [|[|[|j]]]; [reflexivity | reflexivity | reflexivity | lia].
Lemma c142_downwind : differ_downwind (k31 12) 2 f31 f142 d31 d142 ones ones.
Proof.
  split; [cbn; lia|]. split; [intros r j _ _; vm_compute; discriminate|]. split; [repeat split; upto|]. split; [repeat split; upto | upto].
Qed.
Lemma c142_case : well_posed (gauss 5) (k31 12) f31 d31 ones /\ well_posed (gauss 5) (k31 12) f142 d142 ones /\ differ_downwind (k31 12) 2 f31 f142 d31 d142 ones ones /\
  shown (k31 12) (by_gauss (k31 12) f31 d31 ones) = Some ([0; 9850 # 19683; 44356 # 177147; 332504 # 531441; 0], [1; 1; 0; 1; 1], true) /\
  shown (k31 12) (by_gauss (k31 12) f142 d142 ones) = Some ([0; 9850 # 19683; 44356 # 177147; 448982214313 # 185752092672; 0], [1; 1; 0; 0; 0], true).
Proof. split; [apply (c31_holds 12)|]. split; [apply c142_holds|]. split; [apply c142_downwind|]. split; vm_compute; reflexivity. Qed.

(** Another bed behind the second column, and another wind there; a storm, calm, and a breeze. *)
Definition cell143 : bedcell := {| Bed_Model.mass := [[50]; [60]]; Bed_Model.pickup := [0]; zb := 2; zs := 0 |}.
Definition s143 : state := {| air := [from 2 0 3]; sand := [cell123b; cell123b; cell143; cell143]; oldCu := [zeros]; oldCuf := [zeros]; oldw := fun _ => [0] |}.
Definition gust (q q' : Q) : wind := {| speed := case_f (fun _ j => from 2 1 3 j) (even 0); wCu := from 2 q q'; wCuf := from 2 q q'; wCu0 := from 2 q q' |}.
Definition weather143 : list (option (list wind)) := [Some [gust 70 20]; None; Some [gust 4 9]].
Definition run143 : result (option (state * list (list outcome))) := run (gauss 4) k123 e123b true s143 weather143.
Lemma gust_fair q q' : 0 <= q -> 0 <= q' -> fair_wind (gauss 4) k123 one_area (gust q q').
Proof.
  intros Hq Hq'. assert (H1 : sensible k123) by (apply case_sensible; [discriminate | lia | lra]).
  assert (Ho : onshore_wind k123 (speed (gust q q'))) by (intros r j _ _; cbn; unfold from; destruct (Nat.ltb j 2); lra).
  assert (H3 : lateral_uniform k123 (speed (gust q q'))) by (intros r j _ _; reflexivity). pose proof (onshore_gathers _ _ H1 Ho) as H4. pose proof ends123 as H5.
  split; [apply case_rect|]. split; [exact H3|]. split; [exact Ho|]. split; [intros _ c _; reflexivity|]. split; [left; exact H5|].
  split; [apply case_ends; lra|]. split; [apply (gauss_exact k123 (speed (gust q q'))); try assumption; apply case_rect|]. split; [intros r c _ _; reflexivity|].
  intros i _. cbn. unfold from. destruct (Nat.ltb i 2); repeat split; lra.
Qed.
Lemma fair143 : fair_weather (gauss 4) 1 k123 one_area weather143.
Proof. intros ws [E | [E | [E | []]]]; try discriminate; injection E as <-; (split; [reflexivity|]); intros w [<- | []]; apply gust_fair; lra. Qed.
Lemma state143 : sound_state 1 k123 s143.
Proof.
  split; [reflexivity|]. split; [intros a Ha i _; cbn in Ha; members; unfold from; destruct (Nat.ltb i 2); lra|]. split; [reflexivity|].
  assert (P : forall x, In x [cell123b; cell143] -> sound_layers 1 (Bed_Model.mass x)).
  { intros x Hx. cbn in Hx. members; (split; [discriminate|]); (split; [intros l Hl; cbn in Hl; members; reflexivity|]); (split; [|intros l Hl; cbn in Hl; members; reflexivity]); intros l Hl y Hy; cbn in Hl; members; cbn in Hy; members; vm_compute; discriminate. }
  intros c Hc. apply P. cbn [sand s143 In] in *. tauto.
Qed.
Ltac upto2 := let r := fresh "r" in let j := fresh "j" in let Hr := fresh in let Hj := fresh in
  intros r j Hr Hj; cbn in Hr; destruct r as [|r]; [|lia]; destruct j as [|[|j]]; [reflexivity | reflexivity | lia].
Lemma same143 : same_state_upto k123 1 s123b s143.
Proof.
  split; [repeat constructor; upto2|]. intros r j a a' Hr Hj. cbn in Hr. destruct r as [|r]; [|lia]. destruct j as [|[|j]]; [| |lia]; cbn; intros E E'; injection E as <-; injection E' as <-; repeat constructor.
Qed.
Lemma weather143_same : Forall2 (hour_upto k123 1) weather123b weather143.
Proof. repeat constructor; upto2. Qed.
Lemma c143_case : sound_setup 1 k123 e123b /\ (1 < nx k123)%nat /\ sound_state 1 k123 s123b /\ sound_state 1 k123 s143 /\ fair_weather (gauss 4) 1 k123 one_area weather123b /\ fair_weather (gauss 4) 1 k123 one_area weather143 /\
  same_state_upto k123 1 s123b s143 /\ Forall2 (hour_upto k123 1) weather123b weather143 /\
  (exists s' trace, run123b = Ok (Some (s', trace)) /\ forall os, In os trace -> smooth (sand s123b) os) /\ (exists s' trace, run143 = Ok (Some (s', trace)) /\ forall os, In os trace -> smooth (sand s143) os) /\
  shown_run k123 e123b one_area s143 weather143 run143 =
    Some ([483 # 500; 86122979 # 88573500; 4391444893 # 2214337500; 1971 # 1000], [[0; 1121956 # 177147; 20313056 # 4428675; 0]], [[true]; []; [true]], -1998893 # 54675, -53971361 # 1476225).
Proof.
  split; [apply setup123b|]. split; [cbn; lia|]. split; [apply state123b|]. split; [apply state143|]. split; [apply fair123b|]. split; [apply fair143|]. split; [apply same143|]. split; [apply weather143_same|].
  split; [apply c123_storm|]. split; [|vm_compute; reflexivity].
  assert (H : match run143 with Ok (Some (_, t)) => forallb (smoothb (sand s143)) t | _ => false end = true) by (vm_compute; reflexivity).
  destruct run143 as [[[s' t]|]|]; try discriminate. exists s', t. split; [reflexivity|]. intros os Hos. rewrite forallb_forall in H. apply smoothb_ok, H, Hos.
Qed.

(** Crank-Nicolson: sand in the air of the third column lowers what is in the air before it. *)
Definition f144 : flow := case_f (even 10) (even 0).
Definition d144 (q : Q) : input := case_d ones ones tens (fun i => if Nat.eqb i 2 then q else 0).
Definition o144 (q : Q) : option outcome := match by_gauss (k63 0 (1 # 2)) f144 (d144 q) ones with Ok x => x | Raise _ => None end.
Lemma c144_half : exists sp k f d d' w u c o o', ordinary k f d w /\ ordinary k f d' w /\ same_capacity k d /\ alpha k == 1 # 2 /\ uniform_wind k f u 0 /\ 0 < u /\ exact_solver (number_of_cells k) (matrix k f) sp /\
  differ_downwind k c f f d d' w w /\ solve_fraction sp k f d w = Ok (Some o) /\ solve_fraction sp k f d' w = Ok (Some o') /\ converged o = true /\ converged o' = true /\ at_cell k (ct o') 0 c < at_cell k (ct o) 0 c.
Proof.
  assert (P : forall q, 0 <= q -> ordinary (k63 0 (1 # 2)) f144 (d144 q) ones).
  { intros q Hq. apply c63_ordinary; [discriminate | lra | intros i; unfold ones, tens; destruct (Nat.eqb i 2); repeat split; lra]. }
  exists (gauss 4), (k63 0 (1 # 2)), f144, (d144 0), (d144 10), ones, 10, 1%nat.
  assert (H : match o144 0, o144 10 with Some o, Some o' => converged o && converged o' && Qltb (ct o' 1%nat) (ct o 1%nat) | _, _ => false end = true) by (vm_compute; reflexivity).
  destruct (o144 0) as [o|] eqn:E; [|discriminate H]. destruct (o144 10) as [o'|] eqn:E'; [|discriminate H]. exists o, o'.
  apply andb_prop in H. destruct H as (H & H3). apply andb_prop in H. destruct H as (H1 & H2).
  split; [apply P; lra|]. split; [apply P; lra|]. split; [intros i _; reflexivity|]. split; [reflexivity|]. split; [apply case_even|]. split; [lra|].
  split; [apply (gauss_exact (k63 0 (1 # 2)) f144)|].
  - apply case_sensible; [discriminate | lia | lra].
  - apply case_rect.
  - intros r j _ _; reflexivity.
  - apply onshore_gathers. apply case_sensible; [discriminate | lia | lra]. intros r j _ _; cbn; unfold even; lra.
  - split; [right; left; reflexivity | split; [right; left; reflexivity | reflexivity]].
  - split; [split; [cbn; lia|]; split; [intros r j _ _; cbn; unfold even; lra|]; split; [repeat split; upto2|]; split; [repeat split; upto2 | upto2]|].
    unfold o144, by_gauss in E, E'. change (number_of_cells (k63 0 (1 # 2))) with 4%nat in E, E'.
    destruct (solve_fraction (gauss 4) (k63 0 (1 # 2)) f144 (d144 0) ones) as [x|] eqn:F; [|discriminate E]. destruct (solve_fraction (gauss 4) (k63 0 (1 # 2)) f144 (d144 10) ones) as [x'|] eqn:F'; [|discriminate E'].
    rewrite E, E'. split; [reflexivity|]. split; [reflexivity|]. split; [exact H1|]. split; [exact H2|]. unfold at_cell. destruct (Qltb_spec (ct o' 1%nat) (ct o 1%nat)) as [G|]; [exact G | discriminate H3].
Qed.
