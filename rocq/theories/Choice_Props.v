(** The names of methods in the configuration: properties C201-C203. *)
From Verif Require Import Base Choice_Model Choice_Spec Choice_Proofs.


(** C201 for five of the eleven parameters: capitals do not matter.  Full statement: for all of them; false, see C201_capitals_refuted. *)
Theorem C201_capitals_partial : forall o v w b, In o tolerant -> same_name v w -> pick o v = Picks b <-> pick o w = Picks b.
Proof. exact capitals. Qed.
Print Assumptions C201_capitals_partial.
Example C201_capitals_partial_case : In Transport tolerant /\ same_name (txt "Bagnold_GS") (txt "bagnold_gs") /\ pick Transport (txt "Bagnold_GS") = Picks BagnoldGs.
Proof. exact case_capitals. Qed.

(** C201 is false: 'Okin' leads to the method of Raupach, 'okin' to that of Okin, without a message. *)
Theorem C201_capitals_refuted : exists o v w b b', same_name v w /\ pick o v = Picks b /\ pick o w = Picks b' /\ b <> b'.
Proof. exact other_method. Qed.
Print Assumptions C201_capitals_refuted.

(** C201: of every other parameter some documented name is not understood with a capital. *)
Theorem C201_capitals_matter : forall o, ~ In o tolerant -> exists n b v, In (n, b) (documented o) /\ same_name v n /\ pick o v <> Picks b.
Proof. exact mind_capitals. Qed.
Print Assumptions C201_capitals_matter.
Example C201_capitals_matter_case : ~ In Grainspeed tolerant /\ pick Grainspeed (txt "duran") = Picks SpeedDuran /\ pick Grainspeed (txt "Duran") = Fails NameError.
Proof. exact case_mind. Qed.

(** C202 for four of the parameters: a name is understood, or refused with a ValueError that quotes it.  Full statement: for all of them; false, see C202_unknown_refuted. *)
Theorem C202_unknown_partial : forall o v, In o refusing ->
  (exists n b, In (n, b) (known o) /\ same_name v n /\ pick o v = Picks b) \/
  (exists pre post, pick o v = Refuses (pre ++ v ++ post)).
Proof. exact refused. Qed.
Print Assumptions C202_unknown_partial.
Example C202_unknown_partial_case : In Scheme refusing /\ pick Scheme (txt "implicit") = Refuses (txt "Unknown scheme [implicit]").
Proof. exact case_refused. Qed.

(** C202 is false: an unknown name of a law of growth is accepted. *)
Theorem C202_unknown_refuted : exists o v, (forall n b, In (n, b) (known o) -> ~ same_name v n) /\ (forall m, pick o v <> Refuses m) /\
  (exists b, pick o v = Picks b).
Proof. exact not_refused. Qed.
Print Assumptions C202_unknown_refuted.

(** C202: what the other parameters do with an unknown name: UnboundLocalError, KeyError, TypeError, or a silent choice. *)
Theorem C202_unknown_others : forall o v, ~ In o refusing -> (forall n b, In (n, b) (known o) -> ~ same_name v n) -> pick o v = unrefused o.
Proof. exact what_happens. Qed.
Print Assumptions C202_unknown_others.
Example C202_unknown_others_case : ~ In Roughness refusing /\ forall n b, In (n, b) (known Roughness) -> ~ same_name (txt "log_law") n.
Proof. exact case_what. Qed.

(** C203 for the names that the code knows, documented or not: each leads to its own method.  Full statement: for all documented names; false, see C203_names_refuted. *)
Theorem C203_names_partial : forall o n b, In (n, b) (known o) -> pick o n = Picks b.
Proof. exact meant. Qed.
Print Assumptions C203_names_partial.
Example C203_names_partial_case : In (txt "pieter", Pieter) (known Solver) /\ List.length (known MoistThreshold) = 10.
Proof. exact case_meant. Qed.

(** C203 is false: 'surface_moisture' of the comment in constants.py is not a name of the surface moisture method. *)
Theorem C203_names_refuted : exists o n b, In (n, b) (documented_otherwise o) /\ pick o n <> Picks b.
Proof. exact misnamed. Qed.
Print Assumptions C203_names_refuted.

(** C203: nor does any name that is documented otherwise lead to any method. *)
Theorem C203_misnamed : forall o n b, In (n, b) (documented_otherwise o) -> forall b', pick o n <> Picks b'.
Proof. exact misnamed_all. Qed.
Print Assumptions C203_misnamed.
Example C203_misnamed_case : In (txt "strypsteen_vanrijn", RoughVanRijn) (documented_otherwise Roughness) /\ pick Roughness (txt "strypsteen_vanrijn") = Fails NameError.
Proof. exact case_misnamed. Qed.
