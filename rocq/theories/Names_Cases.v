(** Concrete cases for the names of parameters and grids. *)
From Coq Require Import String List.
From Verif Require Import Base State_Model Names_Model Names_Spec Names_Proofs.
Import ListNotations.
Open Scope string_scope.

Lemma c156_case : param_read "accfac" /\ ~ In "accfac" without_default.
Proof.
  split; [|apply memb_not; reflexivity]. apply (names_in_iff param_reads), memb_iff. vm_compute. reflexivity.
Qed.
Lemma c157_case : grid_read "gw_prev" /\ grid_read "tide_mask" /\ grid_read "shear" /\ in_state "gw_prev".
Proof.
  repeat split; try (apply (names_in_iff grid_reads), memb_iff; vm_compute; reflexivity).
  apply state_iff, memb_iff. vm_compute. reflexivity.
Qed.
Lemma c157_masks_case : In "tide_mask" default_config_names /\ "tide_mask" = "tide" ++ "_mask".
Proof. split; [apply memb_iff; vm_compute; reflexivity|reflexivity]. Qed.
Lemma c158_case : in_state "salt" /\ ~ In "salt" idle /\ in_state "w_air" /\ ~ In "w_air" idle.
Proof.
  repeat split; try (apply state_iff, memb_iff; vm_compute; reflexivity); apply memb_not; reflexivity.
Qed.
Lemma c156_these_case : In "Cs" without_default /\ In "m" without_default.
Proof. cbn. tauto. Qed.
Lemma c158_idle_case : In "dtaus" idle /\ In "dzdry" idle.
Proof. cbn. tauto. Qed.
