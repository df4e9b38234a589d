(** The pace of vegetation growth: property C195. *)
From Verif Require Import Base Veg_Model Veg_Spec Veg_Cases Pace_Spec Pace_Proofs.
From Coq Require Import Reals.
Open Scope R_scope.

(** C195 for the growth in height (veggrowth_type orig): in a step of any length the plants grow at their rate per year for the simulated time, as long as they neither die nor reach their maximum. *)
Theorem C195_height : forall p d e c, usual p -> veggrowth_type p = Orig -> 0 < V_ver p -> 0 < d -> habitable p e -> 0 < rhoveg c ->
  let h := hveg (step (with_length p d) e c) in 0 < h < hveg_max p -> h = hveg c + taller_per_year p e (hveg c) * years p d.
Proof. exact height_pace. Qed.
Print Assumptions C195_height.
Example C195_height_case : let p := dune Orig 1 1 in usual p /\ habitable p dry /\ 0 < rhoveg grass /\ 0 < hveg (step (with_length p 1800) dry grass) < hveg_max p.
Proof. exact c195_height_case. Qed.

(** C195 for the growth in cover (other types), in steps of the configured length only.  Full statement: the same for [step (with_length p d)] and [years p d] with any [d]; false, see C195_cover_refuted. *)
Theorem C195_cover_partial : forall p e c, usual p -> veggrowth_type p = DuranMoore -> 0 < V_ver p -> dt_opt p = dt p -> habitable p e -> 0 < rhoveg c <= rhoveg_max p ->
  let rho := rhoveg (step p e c) in 0 < rho -> rho = rhoveg c + denser_per_year p e (rhoveg c) * years p (dt_opt p).
Proof. exact cover_pace. Qed.
Print Assumptions C195_cover_partial.
Example C195_cover_partial_case : let p := dune DuranMoore 1 1 in usual p /\ habitable p dry /\ dt_opt p = dt p /\ 0 < rhoveg grass <= rhoveg_max p /\ 0 < rhoveg (step p dry grass).
Proof. exact c195_cover_case. Qed.

(** C195 is false for the growth in cover: the plants grow in a step of a second as much as in an hour. *)
Theorem C195_cover_refuted : exists p e c, usual p /\ 0 < V_ver p /\ physical p c /\ habitable p e /\ dt_opt p = 3600 /\ dt p = 3600 /\
  let rho d := rhoveg (step (with_length p d) e c) in rhoveg c < rho 3600 /\ rho 3600 = rhoveg c + denser_per_year p e (rhoveg c) * years p 3600 /\ rho 1 = rho 3600.
Proof. exact c195_refuted. Qed.
Print Assumptions C195_cover_refuted.
