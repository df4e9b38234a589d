(** What the seepage face property says. *)
From Coq Require Import ZArith.
From Verif Require Import Base Num Hydro_Model.
Open Scope Q_scope.

(** At cell b the groundwater w is for the first time, counted from the sea, more than 5 cm below the bed z. *)
Definition exit_point (b : nat) (w z : list Q) : Prop :=
  nth b w 0 + (5 # 100) < nth b z 0 /\ (b < length w)%nat /\ forall j, (j < b)%nat -> nth j z 0 <= nth j w 0 + (5 # 100).
(** The same configuration with process_seepage_face off. *)
Definition no_seepage (g : gwcfg) : gwcfg :=
  {| static := static g; GW_stat := GW_stat g; K_gw := K_gw g; ne_gw := ne_gw g; D_gw := D_gw g; Cl_gw := Cl_gw g; seepage := false; waves := waves g |}.
