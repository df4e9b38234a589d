(** Statements for Run_Props.v and concrete cases. *)
From Coq Require Import QArith Lia Lqa List Bool Arith Setoid.
From Verif Require Import Base Num Utils_Model Utils_Spec Utils_Proofs Utils_Cases Bed_Model Bed_Spec Bed_Proofs Bed_Cases Solver_Model Solver_Spec Linear Solver_Proofs Solver_Iter Solver_Balance Solver_Cases Run_Model Run_Spec Run_Proofs Run_Whole.
Import ListNotations.
Open Scope Q_scope.

Lemma whole_run sp nf k e g M L weather t0 s : sound_setup nf k e -> prescribed_ends k -> 0 <= M -> inject_Z (Z.of_nat nf) * (M * dt k / T k) < L ->
  sound_state nf k s -> equal_layers L s -> limited_air k M s -> fair_weather sp nf k g weather -> limited_weather k M weather ->
  exists n0 s' trace, (forall n, (n0 <= n)%nat -> run sp (with_iterations k n) e t0 s weather = Ok (Some (s', trace))) /\
    sound_state nf k s' /\ equal_layers L s' /\ limited_air k M s' /\
    0 <= content k e g s' - content k e g s - blown k weather trace <= inject_Z (Z.of_nat (windy weather)) * (inject_Z (Z.of_nat nf) * (max_error k * over_inside k g)).
Proof.
  intros He Hp HM Hb Hs HL Ha Hf Hlim. destruct (whole_exists sp nf k e g M L He Hp HM Hb weather t0 s Hs HL Ha Hf Hlim) as (n0 & s' & trace & Hn & Hsm & R1 & R2 & R3).
  exists n0, s', trace. split; [exact Hn|]. split; [exact R1|]. split; [exact R2|]. split; [exact R3|].
  apply (whole_balance sp nf (with_iterations k n0) e g He weather t0 s s' trace Hs Hf (Hn n0 (Nat.le_refl n0)) Hsm).
Qed.

(** A beach of four cells, both ends prescribed without sand. *)
Definition k123 : cfg := case_k true 0 3 1 12 Constant Constant 0.
Definition bed123 : bedparams := {| Bed_Model.max_error := 1 # 1000; rhog := 2000; porosity := 1 # 2; process_bedupdate := true; process_tide := false |}.
Definition breeze (q : Q) : wind := {| speed := f31; wCu := fun _ => q; wCuf := fun _ => q; wCu0 := fun _ => q |}.
Definition one_area : nat -> nat -> Q := fun _ _ => 1.
Lemma breeze_fair q : 0 <= q -> fair_wind (gauss 4) k123 one_area (breeze q).
Proof.
  intros Hq. assert (H1 : sensible k123) by (apply case_sensible; [discriminate | lia | lra]).
  destruct (uniform_gathering _ _ _ _ (case_even k123 1 0)) as (H3 & H4). specialize (H4 H1).
  assert (H5 : prescribed_ends k123) by (split; [right; left; reflexivity | split; [right; left; reflexivity | reflexivity]]).
  split; [apply case_rect|]. split; [exact H3|]. split; [intros r c _ _; vm_compute; discriminate|]. split; [intros _ c _; reflexivity|]. split; [left; exact H5|].
  split; [apply case_ends; lra|]. split; [apply (gauss_exact k123 f31); try assumption; apply case_rect|]. split; [intros r c _ _; reflexivity|]. intros i _. cbn. repeat split; lra.
Qed.
Lemma breeze_limited M q : 0 <= M -> q <= M -> limited_wind k123 M (breeze q).
Proof. intros HM Hq. split; [exists 1, 0; apply case_even|]. split; [intros i _; exact Hq|]. intros r _. cbn. split; apply Qle_shift_div_r; lra. Qed.
Lemma ends123 : prescribed_ends k123.
Proof. split; [right; left; reflexivity | split; [right; left; reflexivity | reflexivity]]. Qed.
(** What is left of a run. *)
Definition shown_run (k : cfg) (e : setup) (g : nat -> nat -> Q) (s : state) (weather : list (option (list wind))) (x : result (option (state * list (list outcome)))) :=
  match x with
  | Ok (Some (s', t)) => Some (map (fun c => Qred (zb c)) (sand s'), map (show k) (air s'), map (map converged) t, Qred (content k e g s' - content k e g s), Qred (blown k weather t))
  | _ => None
  end.
Ltac members := repeat match goal with H : _ \/ _ |- _ => destruct H as [H | H] | H : False |- _ => contradiction | H : _ = ?x |- _ => is_var x; subst x end.

(** Two fractions in two layers; wind, then calm. *)
Definition e123 : setup := {| bi := 1 # 2; bedcomp := false; grains := [1 # 2; 1 # 2]; base := fun _ => [1 # 4; 3 # 4]; bedp := bed123 |}.
Definition cell123 : bedcell := {| Bed_Model.mass := [[10; 20]; [20; 10]]; Bed_Model.pickup := [0; 0]; zb := 1; zs := 0 |}.
Definition s123 : state := {| air := [zeros; zeros]; sand := [cell123; cell123; cell123; cell123]; oldCu := [zeros; zeros]; oldCuf := [zeros; zeros]; oldw := fun _ => [0; 0] |}.
Definition weather123 : list (option (list wind)) := [Some [breeze 8; breeze 4]; None].
Lemma setup123 : sound_setup 2 k123 e123.
Proof.
  split; [apply case_sensible; [discriminate | lia | lra]|]. split; [reflexivity|]. split; [reflexivity|]. split; [reflexivity|]. split; [vm_compute; discriminate|]. split; [vm_compute; discriminate|].
  split; [reflexivity|]. split; [intros x Hx; cbn in Hx; members; vm_compute; discriminate|]. split; [lia|]. split; [|split; reflexivity].
  intros j. split; [reflexivity|]. split; [|reflexivity]. intros x Hx; cbn in Hx; members; vm_compute; discriminate.
Qed.
Lemma state123 : sound_state 2 k123 s123.
Proof.
  split; [reflexivity|]. split; [intros a Ha i _; cbn in Ha; members; vm_compute; discriminate|]. split; [reflexivity|].
  assert (P : sound_layers 2 (Bed_Model.mass cell123)).
  { split; [discriminate|]. split; [intros l Hl; cbn in Hl; members; reflexivity|]. split; [|intros l Hl; cbn in Hl; members; reflexivity]. intros l Hl x Hx; cbn in Hl; members; cbn in Hx; members; vm_compute; discriminate. }
  intros c Hc. cbn [sand s123 In] in Hc. members; exact P.
Qed.
Lemma fair123 : fair_weather (gauss 4) 2 k123 one_area weather123.
Proof. intros ws [E | [E | []]]; try discriminate; injection E as <-; (split; [reflexivity|]); intros w [<- | [<- | []]]; apply breeze_fair; lra. Qed.
Lemma equal123 : equal_layers 30 s123.
Proof. intros c Hc l Hl. cbn [sand s123 In] in Hc. members; cbn in Hl; members; reflexivity. Qed.
Lemma air123 : limited_air k123 10 s123.
Proof. intros a Ha i _; cbn in Ha; members; vm_compute; discriminate. Qed.
Lemma limited123 : limited_weather k123 10 weather123.
Proof. intros ws [E | [E | []]]; try discriminate; injection E as <-; intros w [<- | [<- | []]]; apply breeze_limited; lra. Qed.
Lemma c123_two : sound_setup 2 k123 e123 /\ prescribed_ends k123 /\ inject_Z (Z.of_nat 2) * (10 * dt k123 / T k123) < 30 /\ sound_state 2 k123 s123 /\ equal_layers 30 s123 /\ limited_air k123 10 s123 /\
  fair_weather (gauss 4) 2 k123 one_area weather123 /\ limited_weather k123 10 weather123 /\
  shown_run k123 e123 one_area s123 weather123 (run (gauss 4) k123 e123 true s123 weather123) =
    Some ([497 # 500; 249 # 250; 299 # 300; 497 # 500], [[0; 4 # 3; 16 # 9; 0]; [0; 2 # 3; 8 # 9; 0]], [[true; true]; []], -8 # 3, -8 # 3).
Proof.
  split; [apply setup123|]. split; [apply ends123|]. split; [reflexivity|]. split; [apply state123|]. split; [apply equal123|]. split; [apply air123|]. split; [apply fair123|]. split; [apply limited123|]. vm_compute. reflexivity.
Qed.

(** One fraction: a storm for which there is not enough sand, calm, a breeze in which some of it settles. *)
Definition e123b : setup := {| bi := 1; bedcomp := false; grains := [1]; base := fun _ => [1]; bedp := bed123 |}.
Definition cell123b : bedcell := {| Bed_Model.mass := [[30]; [40]]; Bed_Model.pickup := [0]; zb := 1; zs := 0 |}.
Definition s123b : state := {| air := [zeros]; sand := [cell123b; cell123b; cell123b; cell123b]; oldCu := [zeros]; oldCuf := [zeros]; oldw := fun _ => [0] |}.
Definition weather123b : list (option (list wind)) := [Some [breeze 70]; None; Some [breeze 4]].
Definition run123b : result (option (state * list (list outcome))) := run (gauss 4) k123 e123b true s123b weather123b.
Lemma setup123b : sound_setup 1 k123 e123b.
Proof.
  split; [apply case_sensible; [discriminate | lia | lra]|]. split; [reflexivity|]. split; [reflexivity|]. split; [reflexivity|]. split; [vm_compute; discriminate|]. split; [vm_compute; discriminate|].
  split; [reflexivity|]. split; [intros x Hx; cbn in Hx; members; vm_compute; discriminate|]. split; [lia|]. split; [|split; reflexivity].
  intros j. split; [reflexivity|]. split; [|reflexivity]. intros x Hx; cbn in Hx; members; vm_compute; discriminate.
Qed.
Lemma state123b : sound_state 1 k123 s123b.
Proof.
  split; [reflexivity|]. split; [intros a Ha i _; cbn in Ha; members; vm_compute; discriminate|]. split; [reflexivity|].
  assert (P : sound_layers 1 (Bed_Model.mass cell123b)).
  { split; [discriminate|]. split; [intros l Hl; cbn in Hl; members; reflexivity|]. split; [|intros l Hl; cbn in Hl; members; reflexivity]. intros l Hl x Hx; cbn in Hl; members; cbn in Hx; members; vm_compute; discriminate. }
  intros c Hc. cbn [sand s123b In] in Hc. members; exact P.
Qed.
Lemma fair123b : fair_weather (gauss 4) 1 k123 one_area weather123b.
Proof. intros ws [E | [E | [E | []]]]; try discriminate; injection E as <-; (split; [reflexivity|]); intros w [<- | []]; apply breeze_fair; lra. Qed.
(** [smooth], computed. *)
Definition smoothb (cs : list bedcell) (os : list outcome) : bool :=
  match os with [] => true | _ => forallb converged os && forallb (fun jc => forallb (fun l => Qle_bool (qabs (net_deposit (picked os (fst jc)))) (qsum l)) (Bed_Model.mass (snd jc))
    && Qltb (net_deposit (picked os (fst jc))) (qsum (hd [] (Bed_Model.mass (snd jc))))) (combine (seq 0 (length cs)) cs) end.
Lemma smoothb_ok cs os : smoothb cs os = true -> smooth cs os.
Proof.
  unfold smoothb, smooth. destruct os as [|o os]; [left; reflexivity|]. intros H. right. apply andb_prop in H. destruct H as (H1 & H2). rewrite forallb_forall in H1, H2. split; [exact H1|].
  intros j c Hj. specialize (H2 (j, c) (nth_error_In _ _ (combine_seq_nth cs 0 j c Hj))). cbn [fst snd] in H2. apply andb_prop in H2. destruct H2 as (H2 & H3). rewrite forallb_forall in H2. split.
  - intros l Hl. apply Qle_bool_iff, H2, Hl.
  - destruct (Qltb_spec (net_deposit (picked (o :: os) j)) (qsum (hd [] (Bed_Model.mass c)))); [assumption | discriminate].
Qed.
Lemma c123_storm : sound_setup 1 k123 e123b /\ sound_state 1 k123 s123b /\ fair_weather (gauss 4) 1 k123 one_area weather123b /\
  (exists s' trace, run123b = Ok (Some (s', trace)) /\ forall os, In os trace -> smooth (sand s123b) os) /\
  shown_run k123 e123b one_area s123b weather123b run123b =
    Some ([483 # 500; 86122979 # 88573500; 31151309 # 31886460; 483 # 500], [[0; 1121956 # 177147; 17449432 # 1594323; 0]], [[true]; []; [true]], -53319892 # 1594323, -53322832 # 1594323).
Proof.
  split; [apply setup123b|]. split; [apply state123b|]. split; [apply fair123b|]. split; [|vm_compute; reflexivity].
  assert (H : match run123b with Ok (Some (_, t)) => forallb (smoothb (sand s123b)) t | _ => false end = true) by (vm_compute; reflexivity).
  destruct run123b as [[[s' t]|]|]; try discriminate. exists s', t. split; [reflexivity|]. intros os Hos. rewrite forallb_forall in H. apply smoothb_ok, H, Hos.
Qed.

(** The bed of the first column is eroded although no sand gets into the air there. *)
Lemma c123_border : exists sp nf k e g M L weather s s' trace, sound_setup nf k e /\ prescribed_ends k /\ 0 <= M /\ inject_Z (Z.of_nat nf) * (M * dt k / T k) < L /\
  sound_state nf k s /\ equal_layers L s /\ limited_air k M s /\ fair_weather sp nf k g weather /\ limited_weather k M weather /\
  run sp k e true s weather = Ok (Some (s', trace)) /\ (forall os, In os trace -> smooth (sand s) os) /\
  (forall a, In a (air s) -> a 0%nat == 0) /\ (forall os o, In os trace -> In o os -> ct o 0%nat == 0) /\ level s' 0 < level s 0.
Proof.
  assert (H : match run (gauss 4) k123 e123 true s123 weather123 with
              | Ok (Some (s', t)) => forallb (smoothb (sand s123)) t && forallb (forallb (fun o => Qeq_bool (ct o 0%nat) 0)) t && Qltb (level s' 0) (level s123 0) | _ => false end = true) by (vm_compute; reflexivity).
  destruct (run (gauss 4) k123 e123 true s123 weather123) as [[[s' t]|]|] eqn:E; [|discriminate H|discriminate H]. apply andb_prop in H. destruct H as (H & H3). apply andb_prop in H. destruct H as (H1 & H2). rewrite forallb_forall in H1, H2.
  exists (gauss 4), 2%nat, k123, e123, one_area, 10, 30, weather123, s123, s', t.
  split; [apply setup123|]. split; [apply ends123|]. split; [lra|]. split; [reflexivity|]. split; [apply state123|]. split; [apply equal123|]. split; [apply air123|]. split; [apply fair123|]. split; [apply limited123|].
  split; [exact E|]. split; [intros os Hos; apply smoothb_ok, H1, Hos|]. split; [intros a Ha; cbn in Ha; members; reflexivity|]. split.
  - intros os o Hos Ho. specialize (H2 os Hos). rewrite forallb_forall in H2. apply Qeq_bool_eq, H2, Ho.
  - destruct (Qltb_spec (level s' 0) (level s123 0)); [assumption | discriminate].
Qed.
