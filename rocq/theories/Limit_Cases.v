(** Concrete cases of the limits to the change of the bed. *)
From Coq Require Import QArith Reals Qreals Lia List Bool Arith String.
From Verif Require Import Base Num Ext Threshold_Model Threshold_Spec Threshold_Proofs Threshold_Cases Utils_Model Utils_Spec Bed_Model Bed_Spec Solver_Model Solver_Spec Linear Solver_Cases Run_Model Run_Spec Run_Proofs Run_Cases
  Day_Model Day_Spec Day_Proofs Day_Cases Limit_Spec Limit_Proofs Limit_Rock.
From Coq Require Import Lra Lqa.
Import ListNotations.
Open Scope Q_scope.

(** One fraction in two layers of 3 cm. *)
Definition cell168 : bedcell := {| Bed_Model.mass := [[30]; [30]]; Bed_Model.pickup := [0]; Bed_Model.zb := 1; Bed_Model.zs := 0 |}.
Definition s168 : state := {| air := [zeros]; Run_Model.sand := [cell168; cell168; cell168; cell168]; oldCu := [zeros]; oldCuf := [zeros]; oldw := fun _ => [0] |}.
(** A wind of capacity [q], none in the second cell where that is on the rock. Grains already in the air keep moving there. *)
Definition rock_wind (q : Q) (on : bool) : wind := {| speed := f31; wCu := fun j => if (on && Nat.eqb j 1)%bool then 0 else q; wCuf := fun _ => q; wCu0 := fun _ => q |}.
(** The rock under the second cell at [nel]; the third cell is raised by 1 mm in every step. *)
Definition rock_climate (q nel : Q) (past : list state) : day :=
  {| heights := fun _ => 0; blow := match past with s :: _ => Some [rock_wind q (Qle_bool (level s 1) (nel + (1 # 100)))] | [] => None end;
     reshape := fun z j => if Nat.eqb j 2 then z j + (1 # 1000) else z j |}.
(** Rock at the surface of the second cell. *)
Definition bare_climate (q : Q) (past : list state) : day :=
  {| heights := fun _ => 0; blow := Some [rock_wind q true]; reshape := fun z j => if Nat.eqb j 2 then z j + (1 # 1000) else z j |}.
Lemma state168 : sound_state 1 k123 s168.
Proof.
  split; [reflexivity|]. split; [intros a Ha i _; cbn in Ha; members; vm_compute; discriminate|]. split; [reflexivity|].
  assert (P : sound_layers 1 (Bed_Model.mass cell168)).
  { split; [discriminate|]. split; [intros l Hl; cbn in Hl; members; reflexivity|]. split; [|intros l Hl; cbn in Hl; members; reflexivity]. intros l Hl x Hx; cbn in Hl; members; cbn in Hx; members; vm_compute; discriminate. }
  intros c Hc. cbn [Run_Model.sand s168 In] in Hc. members; exact P.
Qed.
Lemma equal168 : equal_layers 30 s168.
Proof. intros c Hc l Hl. cbn [Run_Model.sand s168 In] in Hc. members; cbn in Hl; members; reflexivity. Qed.
Lemma fits168 : fits m163 s168.
Proof. intros j c Hc. apply nth_error_In in Hc. cbn [Run_Model.sand s168 In] in Hc. members; (split; [reflexivity|]); intros x Hx; cbn in Hx; members; discriminate. Qed.
Lemma rock_plain q nel : 0 <= q -> plain_climate (gauss 4) 1 k123 (rock_climate q nel).
Proof.
  intros Hq past ws E. cbn [blow rock_climate] in E. destruct past as [|s p]; [discriminate|]. injection E as <-. set (on := Qle_bool _ _).
  destruct (breeze_fair q Hq) as (F1 & F2 & F3 & F4 & F5 & F6 & F7 & F8 & F9). assert (H1 : sensible k123) by (apply case_sensible; [discriminate | lia | lra]).
  split; [reflexivity|]. split.
  - intros w [<- | []]. split; [exact F1|]. split; [exact F2|]. split; [apply Solver_Cases.onshore_gathers; assumption|]. split; [exact F5|]. split; [exact F6|]. split; [exact F7|].
    intros i _. cbn. destruct (_ && _)%bool; repeat split; lra.
  - intros j _. destruct (on && Nat.eqb j 1)%bool eqn:X.
    + right. intros w [<- | []]. cbn. rewrite X. reflexivity.
    + left. intros w [<- | []]. cbn. rewrite X. reflexivity.
Qed.
Lemma rock_kept q nel j : never_lowered j (rock_climate q nel).
Proof. intros past z. cbn. destruct (Nat.eqb j 2); lra. Qed.

(** The thresholds and capacities behind [rock_wind]: no threshold on sand, shear velocity 1 m/s, formulation of Bagnold with a factor [q]. *)
Definition q168 (q : Q) : tparams := {| Threshold_Model.Cb := Q2R q; Threshold_Model.Ck := 1; Threshold_Model.Cl := 1; Threshold_Model.Cdk := 1; trhoa := 1; tg := 1; accfac := 1; process_transport := true |}%R.
Definition p168 : params := pdef [225 / 1000000]%R [1]%R (2 / 100)%R None true false false false false true "".
Definition c168 (nel z : Q) : cell := {| Threshold_Model.moist := 0; Threshold_Model.zb := Q2R z; Threshold_Model.zs := -1; Threshold_Model.salt := 0; Threshold_Model.ustar := 1; Threshold_Model.mass := [1]; Threshold_Model.mask := (1, 0); Threshold_Model.ne := Q2R nel |}%R.
Definition g168 (u : ext) : grain := {| gu := 1; gustar := 1; gustar0 := 1; guth := u; guthf := Fin 0; guth0 := Fin 0; gd := 225 / 1000000 |}%R.
Lemma q168_good q : 0 < q -> good_t (q168 q).
Proof. intros H. apply Qlt_Rlt in H. replace (Q2R 0) with 0%R in H by (unfold Q2R; cbn; Lra.lra). repeat split; cbn; Lra.lra. Qed.
Lemma rock_is_rocky q nel : 0 < q -> rocky nel 1 (rock_climate q nel).
Proof.
  intros Hq s past ws E. cbn [blow rock_climate] in E. injection E as <-. set (z := level s 1).
  exists p168, (c168 nel z), t00, {| uth := non_erodible (c168 nel z) [Fin 0%R]; uth0 := [Fin 0%R]; uthf := [Fin 0%R] |}.
  split; [reflexivity|]. split; [reflexivity|]. split; [reflexivity|]. split; [reflexivity|]. cbn [uth]. unfold non_erodible. cbn [Threshold_Model.zb ne c168].
  assert (Hu : forall u, exists b, equilibrium (q168 q) Bagnold 1 (g168 u) calm = Ok b) by (intros u; unfold equilibrium; cbn [process_transport q168 bind]; eexists; reflexivity).
  destruct (leb_spec (Q2R z) (Q2R nel + 1 / 100)) as [L|L].
  - constructor; [|constructor]. destruct (Hu PInf) as (b & Hb). exists (q168 q), Bagnold, 1%nat, (g168 PInf), calm, b.
    split; [apply q168_good, Hq|]. do 5 (split; [cbn; try reflexivity; Lra.lra|]). split; [reflexivity|]. split; [exact Hb|].
    rewrite (inf_no_transport (q168 q) Bagnold 1 (g168 PInf) calm b (q168_good q Hq)); try exact Hb; try reflexivity; try (cbn; Lra.lra).
    assert (X : Qle_bool z (nel + (1 # 100)) = true). { apply Qle_bool_iff, Rle_Qle. rewrite Q2R_plus, hundredth. exact L. }
    cbn. rewrite X. cbn. f_equal. unfold Q2R. cbn. Lra.lra.
  - constructor; [|constructor]. exists (q168 q), Bagnold, 1%nat, (g168 (Fin 0%R)), calm.
    eexists. split; [apply q168_good, Hq|]. do 5 (split; [cbn; try reflexivity; Lra.lra|]). split; [reflexivity|]. split; [exact (eq_fin (q168 q) Bagnold 1%R 0%R 0%R calm (or_introl eq_refl) ltac:(Lra.lra) eq_refl)|].
    assert (X : Qle_bool z (nel + (1 # 100)) = false). { destruct (Qle_bool z (nel + (1 # 100))) eqn:X; [|reflexivity]. exfalso. apply L. apply Qle_bool_iff, Qle_Rle in X. rewrite Q2R_plus, hundredth in X. exact X. }
    cbn. rewrite X. cbn. f_equal. apply Qlt_Rlt in Hq. replace (Q2R 0) with 0%R in Hq by (unfold Q2R; cbn; Lra.lra). rewrite Rmax_right; [field | replace (Q2R q * 1 / 1 * ((1 - 0) * (1 - 0) * (1 - 0)) / 1)%R with (Q2R q) by field; Lra.lra].
Qed.

(** Levels, air, and what the second cell gained against what the wind could carry and carried there. *)
Definition shown168 (r : result (option (state * list diary))) : option (list Q * list (list Q) * Q * Q * Q) :=
  match r with
  | Ok (Some (s, t)) => Some (map (fun c => Qred (Bed_Model.zb c)) (Run_Model.sand s), map (show k123) (air s), Qred (sediment e123b (level s 1 - level s168 1 - lifted_in t 1)), Qred (can_carry_in t 1), Qred (does_carry_in t 1))
  | _ => None
  end.
Definition run168 : result (option (state * list diary)) := days (gauss 4) k123 e123b m163 (rock_climate 8 (987 # 1000)) 2 true [] s168.
Lemma shown_run168 : shown168 run168 = Some ([123 # 125; 1123 # 1125; 13427 # 13500; 123 # 125], [[0; 32 # 9; 136 # 27; 0]], -16 # 9, 8, 56 # 9).
Proof. vm_compute. reflexivity. Qed.
Lemma gentle_run168 : exists s' t, run168 = Ok (Some (s', t)) /\ forall y, In y t -> gentle k123 30 y.
Proof.
  assert (H : match run168 with Ok (Some (_, t)) => forallb (gentleb k123 30) t | _ => false end = true) by (vm_compute; reflexivity).
  destruct run168 as [[[s' t]|]|]; try discriminate H. exists s', t. split. reflexivity. intros y Hy. rewrite forallb_forall in H. apply gentleb_ok, H, Hy.
Qed.
Lemma erodes168 : erodes_at_most k123 e123b 1 (8 # 1000) (rock_climate 8 (987 # 1000)).
Proof.
  intros past ws E. cbn [blow rock_climate] in E. destruct past as [|s p]; [discriminate|]. injection E as <-. unfold can_carry, rock_wind, sediment. cbn [map wCu qsum fold_right].
  destruct (Qle_bool _ _); vm_compute; discriminate.
Qed.
Lemma c168_run : sound_setup 1 k123 e123b /\ plain_climate (gauss 4) 1 k123 (rock_climate 8 (987 # 1000)) /\ sound_state 1 k123 s168 /\ equal_layers 30 s168 /\ fits m163 s168 /\
  (exists s' t, run168 = Ok (Some (s', t)) /\ forall y, In y t -> gentle k123 30 y) /\
  shown168 run168 = Some ([123 # 125; 1123 # 1125; 13427 # 13500; 123 # 125], [[0; 32 # 9; 136 # 27; 0]], -16 # 9, 8, 56 # 9).
Proof. split; [apply setup123b|]. split; [apply rock_plain; lra|]. split; [apply state168|]. split; [apply equal168|]. split; [apply fits168|]. split; [apply gentle_run168 | apply shown_run168]. Qed.
(** Rock up to the surface: the second cell only gains. *)
Definition run168b : result (option (state * list diary)) := days (gauss 4) k123 e123b m163 (bare_climate 8) 2 true [] s168.
Lemma c168_bare : sound_setup 1 k123 e123b /\ plain_climate (gauss 4) 1 k123 (bare_climate 8) /\ (forall past ws, blow (bare_climate 8 past) = Some ws -> can_carry ws 1 == 0) /\ never_lowered 1 (bare_climate 8) /\
  sound_state 1 k123 s168 /\ equal_layers 30 s168 /\ fits m163 s168 /\
  (exists s' t, run168b = Ok (Some (s', t)) /\ forall y, In y t -> gentle k123 30 y) /\
  shown168 run168b = Some ([123 # 125; 1132 # 1125; 13427 # 13500; 123 # 125], [[0; 32 # 9; 136 # 27; 0]], 56 # 9, 0, 56 # 9).
Proof.
  split; [apply setup123b|]. split; [intros past ws E; apply (rock_plain 8 2 ltac:(lra) (s168 :: past)); exact E|]. split; [intros past ws E; injection E as <-; reflexivity|]. split; [intros past; exact (rock_kept 8 2 1 (s168 :: past))|].
  split; [apply state168|]. split; [apply equal168|]. split; [apply fits168|]. split; [|vm_compute; reflexivity].
  assert (H : match run168b with Ok (Some (_, t)) => forallb (gentleb k123 30) t | _ => false end = true) by (vm_compute; reflexivity).
  destruct run168b as [[[s' t]|]|]; try discriminate H. exists s', t. split. reflexivity. intros y Hy. rewrite forallb_forall in H. apply gentleb_ok, H, Hy.
Qed.
Lemma c169_rock : sound_setup 1 k123 e123b /\ plain_climate (gauss 4) 1 k123 (rock_climate 8 (987 # 1000)) /\ rocky (987 # 1000) 1 (rock_climate 8 (987 # 1000)) /\ never_lowered 1 (rock_climate 8 (987 # 1000)) /\
  erodes_at_most k123 e123b 1 (8 # 1000) (rock_climate 8 (987 # 1000)) /\ sound_state 1 k123 s168 /\ equal_layers 30 s168 /\ fits m163 s168 /\
  (exists s' t, run168 = Ok (Some (s', t)) /\ forall y, In y t -> gentle k123 30 y) /\
  shown168 run168 = Some ([123 # 125; 1123 # 1125; 13427 # 13500; 123 # 125], [[0; 32 # 9; 136 # 27; 0]], -16 # 9, 8, 56 # 9).
Proof.
  split; [apply setup123b|]. split; [apply rock_plain; lra|]. split; [apply rock_is_rocky; reflexivity|]. split; [apply rock_kept|]. split; [apply erodes168|]. split; [apply state168|]. split; [apply equal168|]. split; [apply fits168|].
  split; [apply gentle_run168 | apply shown_run168].
Qed.
Lemma c169_stopped : with_threshold (987 # 1000) (995 # 1000) 1 [rock_wind 8 true] /\ (995 # 1000) <= (987 # 1000) + (1 # 100) /\ wCuf (rock_wind 8 true) 1 == 8.
Proof.
  split; [|split; [vm_compute; discriminate | reflexivity]].
  exact (rock_is_rocky 8 (987 # 1000) eq_refl {| air := []; Run_Model.sand := [cell168; {| Bed_Model.mass := []; Bed_Model.pickup := []; Bed_Model.zb := 995 # 1000; Bed_Model.zs := 0 |}]; oldCu := []; oldCuf := []; oldw := fun _ => [] |} [] _ eq_refl).
Qed.
(** Layers of 3 cm and a storm: one step digs through the sand and 15 mm into the rock. *)
Lemma c169_thick : exists sp nf k e m L climate nel j s s' t, sound_setup nf k e /\ plain_climate sp nf k climate /\ (j < number_of_cells k)%nat /\ rocky nel j climate /\ never_lowered j climate /\
  sound_state nf k s /\ equal_layers L s /\ fits m s /\ days sp k e m climate 1 true [] s = Ok (Some (s', t)) /\ (forall y, In y t -> gentle k L y) /\ nel + (1 # 100) < level s j /\ level s' j < nel.
Proof.
  set (r := days (gauss 4) k123 e123b m163 (rock_climate 70 (985 # 1000)) 1 true [] s168).
  assert (H : match r with Ok (Some (s', t)) => forallb (gentleb k123 30) t && Qltb (level s' 1) (985 # 1000) | _ => false end = true) by (vm_compute; reflexivity).
  destruct r as [[[s' t]|]|] eqn:E; try discriminate H. apply andb_prop in H. destruct H as (H & G).
  exists (gauss 4), 1%nat, k123, e123b, m163, 30, (rock_climate 70 (985 # 1000)), (985 # 1000), 1%nat, s168, s', t.
  split; [apply setup123b|]. split; [apply rock_plain; lra|]. split; [vm_compute; lia|]. split; [apply rock_is_rocky; reflexivity|]. split; [apply rock_kept|]. split; [apply state168|]. split; [apply equal168|]. split; [apply fits168|].
  split; [exact E|]. split; [intros y Hy; rewrite forallb_forall in H; apply gentleb_ok, H, Hy|]. split; [reflexivity|]. destruct (Qltb_spec (level s' 1) (985 # 1000)); [assumption | discriminate G].
Qed.
