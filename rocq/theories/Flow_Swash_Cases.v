(** Cases and a counterexample for the infiltration from runup. *)
From Coq Require Import ZArith Lia QArith.
From Verif Require Import Base Num Utils_Model Hydro_Model Hydro_Spec Hydro_Proofs Hydro_Cases Flow_Spec Flow_Swash.
Open Scope Q_scope.

(** Runup on a beach: an aquifer with an infiltration coefficient of 1/10, the sea at the datum, runup to 2.5 m. *)
Definition swash_aquifer : gwcfg := {| static := false; GW_stat := 0; K_gw := 1 # 1000; ne_gw := 3 # 10; D_gw := 10; Cl_gw := 1 # 10; seepage := false; waves := true |}.
Definition swash_row : gwrow := mk_row ones beach.
Definition swash_levels : levels := {| dswl := repeat 0 9; twl := repeat (5 # 2) 9 |}.
Definition swash_step (b : bool) (dt : Q) : result (list Q * list Q) := substep (with_waves b swash_aquifer) dt 2 swash_row swash_levels (repeat 0 9).
Lemma swash_zone_case : swash_zone swash_row swash_levels 1 2 5 /\ ~ peak_cell 2 5 3.
Proof. split; [|unfold peak_cell; lia]. split; [reflexivity|]. split; [apply overheight_case|]. repeat split; cbn; lia. Qed.
Lemma free_three gw w : nth_error gw 3 = Some w -> w < 1 # 2 -> free_cell swash_row swash_levels gw 3 w.
Proof. intros E L. split; [exact E|]. exists (1, 0), (1 # 2), 0. repeat split; try reflexivity. discriminate. exact L. Qed.
Lemma c193_case : exists a1 w1 a0 w0 v1 v0, swash_step true 60 = Ok (a1, w1) /\ swash_step false 60 = Ok (a0, w0) /\ free_cell swash_row swash_levels w1 3 v1 /\ free_cell swash_row swash_levels w0 3 v0 /\
  swash_zone swash_row swash_levels 1 2 5 /\ ~ peak_cell 2 5 3 /\ v1 - v0 == 1 # 20.
Proof.
  do 6 eexists. split; [vm_compute; reflexivity|]. split; [vm_compute; reflexivity|]. split; [apply free_three; [reflexivity|reflexivity]|]. split; [apply free_three; [reflexivity|reflexivity]|].
  split; [apply swash_zone_case|]. split; [apply swash_zone_case|]. vm_compute. reflexivity.
Qed.
Lemma c193_refuted : exists g o row lv gw a1 w1 a0 w0 j v1 v0 d s r, swash_zone row lv d s r /\ ~ peak_cell s r j /\ substep (with_waves true g) 1 o row lv gw = Ok (a1, w1) /\ substep (with_waves false g) 1 o row lv gw = Ok (a0, w0) /\
  free_cell row lv w1 j v1 /\ free_cell row lv w0 j v0 /\ 0 < documented_swash g 1 (swash_share (nth s (gx row) 0) (nth r (gx row) 0) (nth j (gx row) 0)) /\
  299 * documented_swash g 1 (swash_share (nth s (gx row) 0) (nth r (gx row) 0) (nth j (gx row) 0)) < v1 - v0.
Proof.
  exists swash_aquifer, 2%Z, swash_row, swash_levels, (repeat 0 9). do 4 eexists. exists 3%nat. do 2 eexists. exists 1, 2%nat, 5%nat. split; [apply swash_zone_case|]. split; [apply swash_zone_case|].
  split; [vm_compute; reflexivity|]. split; [vm_compute; reflexivity|]. split; [apply free_three; [reflexivity|reflexivity]|]. split; [apply free_three; [reflexivity|reflexivity]|]. split; vm_compute; reflexivity.
Qed.
