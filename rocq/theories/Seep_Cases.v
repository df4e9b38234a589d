(** Concrete cases for the seepage face. *)
From Coq Require Import ZArith Lia.
From Verif Require Import Base Num Hydro_Model Hydro_Proofs Seep_Spec Seep_Proofs.
Open Scope Q_scope.

Definition wet_beach : gwcfg := {| static := false; GW_stat := 0; K_gw := 1 # 100; ne_gw := 1 # 10; D_gw := 1; Cl_gw := 0; seepage := true; waves := false |}.
Definition profile : list Q := [-2; -1; 1; 2; 3; 6; 7; 8; 9].
Definition mound : list Q := [0; 0; 2; 3; 4; 4; 4; 4; 4].
Definition sea0 : list Q := repeat 0 9.
Definition levels_after (r : result (list Q * list Q)) : list Q := match r with Ok (w, _) => map Qred w | Raise _ => [] end.
Lemma mound_result : exists r, boussinesq wet_beach 1 1 sea0 (repeat 1 9) profile mound = Ok ([0; -1; 1; 2; 4; 4; 4; 4; 4], r).
Proof. eexists. vm_compute. reflexivity. Qed.
Lemma mound_exit : exit_point 5 [0; -1; 1; 2; 4; 4; 4; 4; 4] profile.
Proof. split; [reflexivity|]. split; [cbn; lia|]. intros j Hj. do 5 (destruct j as [|j]; [discriminate|]). lia. Qed.
Lemma face_case : seepage wet_beach = true /\ length profile = length mound /\ levels_after (boussinesq wet_beach 1 1 sea0 (repeat 1 9) profile mound) = [0; -1; 1; 2; 4; 4; 4; 4; 4] /\
  exit_point 5 [0; -1; 1; 2; 4; 4; 4; 4; 4] profile.
Proof. split; [reflexivity|]. split; [reflexivity|]. split; [vm_compute; reflexivity|exact mound_exit]. Qed.
Lemma outside_case : levels_after (boussinesq (no_seepage wet_beach) 1 1 sea0 (repeat 1 9) profile mound) = [0; 0; 2; 3; 4; 4; 4; 4; 4].
Proof. vm_compute. reflexivity. Qed.
Lemma last_cell : exists g s o d ds z w w' r b, seepage g = true /\ length z = length w /\ boussinesq g (Z.of_nat s) o d ds z w = Ok (w', r) /\ exit_point b w' z /\ (s < b - 1)%nat /\ nth (b - 1) z 0 < nth (b - 1) w' 0.
Proof.
  destruct mound_result as (r & E). exists wet_beach, 1%nat, 1%Z, sea0, (repeat 1 9), profile, mound, [0; -1; 1; 2; 4; 4; 4; 4; 4], r, 5%nat.
  split; [reflexivity|]. split; [reflexivity|]. split; [exact E|]. split; [exact mound_exit|]. split; [lia|reflexivity].
Qed.
Lemma all_wet : exists g s o d ds z w w' r, seepage g = true /\ length z = length w /\ boussinesq g (Z.of_nat s) o d ds z w = Ok (w', r) /\ (forall j, (s < j < length z)%nat -> nth j z 0 < nth j w' 0).
Proof.
  exists wet_beach, 1%nat, 1%Z, sea0, (repeat 1 9), profile, (repeat 10 9). eexists. eexists.
  split; [reflexivity|]. split; [reflexivity|]. split; [vm_compute; reflexivity|]. intros j Hj. cbn in Hj. do 2 (destruct j as [|j]; [lia|]). do 7 (destruct j as [|j]; [reflexivity|]). lia.
Qed.
Lemma raised : exists g s o d ds z w w' r j, seepage g = true /\ length z = length w /\ boussinesq g (Z.of_nat s) o d ds z w = Ok (w', r) /\ nth j w 0 < nth j z 0 /\ nth j w 0 < nth j w' 0 /\ (s < j)%nat /\ nth j d 0 < nth j w 0.
Proof.
  exists wet_beach, 1%nat, 1%Z, sea0, (repeat 1 9), profile, [0; 0; 97 # 100; 197 # 100; 3; 4; 4; 4; 4]. eexists. eexists. exists 2%nat.
  split; [reflexivity|]. split; [reflexivity|]. split; [vm_compute; reflexivity|]. repeat split; try lia; reflexivity.
Qed.
Lemma shore_cell : exists g s o d ds z w w' r, seepage g = true /\ length z = length w /\ boussinesq g (Z.of_nat s) o d ds z w = Ok (w', r) /\ shore z d = Z.of_nat s /\ o = Z.of_nat s /\ nth s w' 0 < nth s d 0.
Proof.
  destruct mound_result as (r & E). exists wet_beach, 1%nat, 1%Z, sea0, (repeat 1 9), profile, mound, [0; -1; 1; 2; 4; 4; 4; 4; 4], r.
  split; [reflexivity|]. split; [reflexivity|]. split; [exact E|]. split; [reflexivity|]. split; reflexivity.
Qed.
