(** The bed level change to which plants respond: property C196. *)
From Verif Require Import Base Veg_Model Veg_Spec Veg_Cases Burial_Model Burial_Spec Burial_Proofs.
From Coq Require Import QArith Qreals Reals.
Open Scope R_scope.

(** C196 where the bed rises or falls by the same amount in all steps of the period.  Full statement: for every series of levels, without [steady]; false, see C196_average_refuted. *)
Theorem C196_steady_partial : forall d levels n z0 z z' dt accfac T avg0, (0 < dt)%Q -> (0 < accfac)%Q -> steady d levels -> nth_error levels 0 = Some z0 -> nth_error levels n = Some z -> nth_error levels (S n) = Some z' ->
  (T == inject_Z (Z.of_nat (S n)) * dt)%Q -> (for_plants (average_change z' z dt accfac T avg0) == average_rate z0 z' T accfac)%Q.
Proof. exact steady_rate. Qed.
Print Assumptions C196_steady_partial.
Example C196_steady_partial_case : steady (1 # 1000) c196_levels /\ nth_error c196_levels 2 = Some (5 + (2 # 1000))%Q /\ (7200 == inject_Z (Z.of_nat 2) * 3600)%Q.
Proof. exact c196_case. Qed.

(** C196 is false: the level is the same as avg_time (two hours) ago, and plants that would grow shrink by the change of the last hour; avg_time has no effect. *)
Theorem C196_average_refuted : exists p e c (z0 z1 z2 dt accfac T avg0 : Q), usual p /\ physical p c /\ habitable p e /\ Q2R dt = dt_opt p /\ Q2R accfac = Veg_Model.accfac p /\ (T == 2 * dt)%Q /\
  (average_rate z0 z2 T accfac == 0)%Q /\
  hveg (step p (seen e (for_plants (average_change z2 z1 dt accfac T avg0))) c) < hveg c < hveg (step p (seen e (average_rate z0 z2 T accfac)) c).
Proof. exact c196_refuted. Qed.
Print Assumptions C196_average_refuted.
