(** Names of parameters and grids: properties C156 to C158. *)
From Coq Require Import String List.
From Verif Require Import Base State_Model Names_Model Names_Spec Names_Proofs Names_Cases.
Import ListNotations.
Open Scope string_scope.

(** C156. Every parameter that the code reads has a default or is set by the program: false. *)
Theorem C156_defaults_refuted : exists n, param_read n /\ ~ available n.
Proof. exact c156_defaults. Qed.
Print Assumptions C156_defaults_refuted.

(** The exceptions are these: the parameter of dune erosion, that of sheltering and the one in the message about an unknown moisture formulation. *)
Theorem C156_these_partial : forall n, In n without_default -> param_read n /\ ~ available n.
Proof. exact c156_these. Qed.
Print Assumptions C156_these_partial.
Example C156_these_partial_case : In "Cs" without_default /\ In "m" without_default.
Proof. exact c156_these_case. Qed.

(** It holds for all others. *)
Theorem C156_others_partial : forall n, param_read n -> ~ In n without_default -> available n.
Proof. exact c156_others. Qed.
Print Assumptions C156_others_partial.
Example C156_others_partial_case : param_read "accfac" /\ ~ In "accfac" without_default.
Proof. exact c156_case. Qed.

(** C157. Every grid that the code reads exists from the start, or is one of a few that the program creates. *)
Theorem C157_grids : forall n, grid_read n ->
  In n (grids_at_start default_config_names) \/ (In n created_later /\ In n (names_in grid_stores)).
Proof. exact c157_grids. Qed.
Print Assumptions C157_grids.
Example C157_grids_case : grid_read "gw_prev" /\ grid_read "tide_mask" /\ grid_read "shear" /\ in_state "gw_prev".
Proof. exact c157_case. Qed.

(** Masks exist for all parameters with such a name. *)
Theorem C157_masks : forall n params, In n params -> (exists a, n = a ++ "_mask") -> In n (grids_at_start params).
Proof. exact c157_masks. Qed.
Print Assumptions C157_masks.
Example C157_masks_case : In "tide_mask" default_config_names /\ "tide_mask" = "tide" ++ "_mask".
Proof. exact c157_masks_case. Qed.

(** C158. Every grid that is declared, and can be asked for as output, is used: false. *)
Theorem C158_used_refuted : exists n, in_state n /\ ~ touched n.
Proof. exact c158_all. Qed.
Print Assumptions C158_used_refuted.

(** Five grids keep the value zero. *)
Theorem C158_idle_partial : forall n, In n idle -> in_state n /\ ~ touched n.
Proof. exact c158_idle. Qed.
Print Assumptions C158_idle_partial.
Example C158_idle_partial_case : In "dtaus" idle /\ In "dzdry" idle.
Proof. exact c158_idle_case. Qed.

(** All others are used. *)
Theorem C158_others_partial : forall n, in_state n -> ~ In n idle -> touched n.
Proof. exact c158_others. Qed.
Print Assumptions C158_others_partial.
Example C158_others_partial_case : in_state "salt" /\ ~ In "salt" idle /\ in_state "w_air" /\ ~ In "w_air" idle.
Proof. exact c158_case. Qed.
