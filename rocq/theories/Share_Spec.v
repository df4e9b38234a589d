(** Notions in which the shares of bed and air in the weights of the fractions are stated (docs/user/model.rst, "Multi-fraction Erosion and Deposition"). *)
From Verif Require Import Base Num.
Open Scope Q_scope.

(** The ratio of the concentration of a fraction to its equilibrium concentration. *)
Definition ratio (ct cu : list Q) (i : nat) : Q := nth i ct 0 / nth i cu 0.
(** The saturation of the air: the sum of the ratios over all fractions. *)
Definition saturation (ct cu : list Q) : Q := qsum (map (ratio ct cu) (seq 0 (length ct))).
(** The composition of the air and of the bed surface: shares of a fraction. *)
Definition of_air (ct cu : list Q) (i : nat) : Q := ratio ct cu i / saturation ct cu.
Definition of_bed (mass : list Q) (i : nat) : Q := nth i mass 0 / qsum mass.
(** A mixture with share [a] of the air and the rest of the bed. *)
Definition mixture (a air bed : Q) : Q := a * air + (1 - a) * bed.
(** The share of the bed as documented: what saturation leaves over, reduced by the bed interaction; in saturated air the interaction itself. *)
Definition doc_bed_share (bi S : Q) : Q := if Qle_bool S 1 then 1 - S * (1 - bi) else bi.
(** Concentrations of as many fractions as there are equilibrium concentrations and masses, in a wind that carries each of them; there is sand in the bed. *)
Definition carried (ct cu mass : list Q) : Prop := length ct = length cu /\ length ct = length mass /\ (forall x, In x cu -> 0 < x) /\
  (forall x, In x ct -> 0 <= x) /\ (forall x, In x mass -> 0 <= x) /\ 0 < qsum mass.
