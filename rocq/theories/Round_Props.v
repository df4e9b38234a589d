(** The clock and the output schedule in machine arithmetic: properties C179 and C180. *)
From Verif Require Import Base Num Time_Spec Round_Model Round_Spec Round_Proofs Round_Error Round_Cases.
From Coq Require Import QArith ZArith List.
Import ListNotations.
Open Scope Q_scope.

(** C179, for times in whole units of a power of two (seconds, halves, quarters): the run makes exactly the updates of exact arithmetic, and ends at its time.  The full statement, for all settings, is false: see C179_decimal_refuted. *)
Theorem C179_binary_partial : forall k g fuel, forward g -> binary k g -> (updates g <= fuel)%nat ->
  exists r, ticking dbl g fuel = Some r /\ k_steps r = updates g /\ k_t r == g_tstart g + inject_Z (Z.of_nat (updates g)) * interval g.
Proof. exact binary_clock. Qed.
Print Assumptions C179_binary_partial.
Example C179_binary_partial_case : forward hour /\ binary 0 hour /\ updates hour = 61%nat /\
  exists r, ticking dbl hour 100 = Some r /\ k_steps r = 61%nat /\ k_t r == 3660 /\ k_outs r = [0; 10; 20; 30; 40; 50; 60]%nat.
Proof. exact binary_clock_case. Qed.

(** C179, for all settings: a run is at most one update longer or shorter than in exact arithmetic.  Full statement: k_steps r = updates g; false, see C179_decimal_refuted. *)
Theorem C179_one_off_partial : forall g fuel, forward g -> short g -> (updates g + 1 <= fuel)%nat ->
  exists r, ticking dbl g fuel = Some r /\ (k_steps r = updates g \/ k_steps r = updates g - 1 \/ k_steps r = updates g + 1)%nat.
Proof. exact one_off. Qed.
Print Assumptions C179_one_off_partial.
Example C179_one_off_partial_case : forward (tenths (3 # 10) 1) /\ short (tenths (3 # 10) 1).
Proof. exact one_off_case. Qed.

(** C179 is false of time steps that are no binary fractions: a run of 0.3 s in steps of 0.1 s makes three updates in place of four. *)
Theorem C179_decimal_refuted : exists g r, forward g /\ short g /\ ticking dbl g 100 = Some r /\ updates g = 4%nat /\ k_steps r = 3%nat.
Proof. exact decimal_clock. Qed.
Print Assumptions C179_decimal_refuted.

(** C180, for times in whole units of a power of two: output is written after every m-th update and after no other.  The full statement, for all settings, is false: see C180_decimal_refuted. *)
Theorem C180_binary_partial : forall k g m fuel, forward g -> binary k g -> g_tstart g == 0 -> (0 < m)%nat -> g_out g == inject_Z (Z.of_nat m) * interval g ->
  (updates g <= fuel)%nat -> exists r, ticking dbl g fuel = Some r /\ k_outs r = every m (updates g).
Proof. exact binary_output. Qed.
Print Assumptions C180_binary_partial.
Example C180_binary_partial_case : g_tstart hour == 0 /\ g_out hour == inject_Z (Z.of_nat 10) * interval hour /\
  every 10 (updates hour) = [0; 10; 20; 30; 40; 50; 60]%nat.
Proof. exact binary_output_case. Qed.

(** C180, for all settings: output comes after m or m+1 updates each time.  Full statement: k_outs r = every m (k_steps r); false, see C180_decimal_refuted. *)
Theorem C180_one_off_partial : forall g m fuel, forward g -> short g -> g_tstart g == 0 -> (0 < m)%nat -> g_out g == inject_Z (Z.of_nat m) * interval g ->
  g_out g <= g_tstop g -> (updates g + 1 <= fuel)%nat ->
  exists r, ticking dbl g fuel = Some r /\ about_every m (k_steps r) (k_outs r).
Proof. exact one_off_output. Qed.
Print Assumptions C180_one_off_partial.
Example C180_one_off_partial_case : forward (tenths 5 1) /\ short (tenths 5 1) /\ g_out (tenths 5 1) == inject_Z (Z.of_nat 10) * interval (tenths 5 1) /\
  exists r, ticking dbl (tenths 5 1) 100 = Some r /\ k_outs r = [0; 11; 21; 31; 41]%nat /\ k_steps r = 51%nat.
Proof. exact one_off_output_case. Qed.

(** C180 is false of time steps that are no binary fractions: with steps of 0.1 s and output every second, output comes after 11 updates, then 10. *)
Theorem C180_decimal_refuted : exists g r, forward g /\ short g /\ g_tstart g == 0 /\ g_out g == inject_Z (Z.of_nat 10) * interval g /\
  ticking dbl g 100 = Some r /\ k_steps r = updates g /\ every 10 (updates g) = [0; 10; 20; 30; 40; 50]%nat /\ k_outs r = [0; 11; 21; 31; 41]%nat.
Proof. exact decimal_output. Qed.
Print Assumptions C180_decimal_refuted.
