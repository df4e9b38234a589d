(** Properties C46, C85, C86: the wind generator. *)
From Verif Require Import Base Num Solver_Model Linear Gen_Model Gen_Spec Gen_Proofs Gen_Cases.
From Coq Require Import QArith.
Open Scope Q_scope.

(** For every sequence of random numbers the series is complete: one row per time step from zero to the duration, speeds not negative, and at most the maximum if the bins are not wider than 1 m/s. *)
Theorem C46_valid : forall mx n p rs dt duration, (0 < n)%nat -> positive_below n p -> uniform rs -> 0 < dt -> exists k us,
  generate mx n p rs dt duration k = Some (Ok us) /\ length (time_series dt us) = S k /\
  (forall i row, nth_error (time_series dt us) i = Some row -> exists u, row = (inject_Z (Z.of_nat i) * dt, u, 0) /\ 0 <= u /\ (0 <= mx -> bin_size mx n <= 1 -> u <= mx)) /\
  duration <= inject_Z (Z.of_nat k) * dt /\ (k = 0%nat \/ (inject_Z (Z.of_nat k) - 1) * dt < duration).
Proof. exact c46_valid. Qed.
Print Assumptions C46_valid.
Example C46_valid_case : positive_below 3 (even 3) /\ uniform middle /\ exists us, generate 3 3 (even 3) middle 60 150 3 = Some (Ok us) /\ map Qred us = [1 # 2; 1 # 2; 1 # 2; 1 # 2].
Proof. exact c46_case. Qed.

(** With wider bins the maximum is exceeded. *)
Theorem C46_maximum_refuted : exists mx n p rs dt duration k us u, 0 < mx /\ positive_below n p /\ uniform rs /\ 0 < dt /\ generate mx n p rs dt duration k = Some (Ok us) /\ In u us /\ mx < u.
Proof. exact c46_too_fast. Qed.
Print Assumptions C46_maximum_refuted.

(** If rounding gives one bin more than there are states, the iteration for the transition matrix never ends. *)
Theorem C46_extra_bin_endless : forall n w, (0 < n)%nat -> (1 # 100000000) * (1 + inject_Z (Z.of_nat n)) < requested (S n) w n -> forall fuel p, settle n (S n) (requested (S n) w) p fuel = None.
Proof. exact c46_endless. Qed.
Print Assumptions C46_extra_bin_endless.
Example C46_extra_bin_endless_case : bin_count 22 30 = Some 31%Z /\ (1 # 100000000) * (1 + inject_Z (Z.of_nat 30)) < requested 31 (fun _ => 1) 30.
Proof. exact c46_endless_case. Qed.

(** It does for a maximum of 22 m/s and the default of 30 states. *)
Theorem C46_hangs_refuted : exists mx n w, bin_count (Z.of_nat mx) (Z.of_nat n) = Some (Z.of_nat (S n)) /\ positive_below (S n) w /\ forall fuel, settle n (S n) (requested (S n) w) (requested (S n) w) fuel = None.
Proof. exact c46_hangs. Qed.
Print Assumptions C46_hangs_refuted.

(** The rows of the transition matrix are distributions, and their cumulative sums end at one. *)
Theorem C85_rows : forall n p x, (x < n)%nat -> positive_below n p -> is_distribution n (chance n p x) /\ forall y, (y < n)%nat -> cumulative n p x y <= cumulative n p x (n - 1).
Proof. exact c85_rows. Qed.
Print Assumptions C85_rows.
Example C85_rows_case : positive_below 3 (even 3) /\ uniform middle /\ exists us, generate 3 3 (even 3) middle 60 150 3 = Some (Ok us) /\ map Qred us = [1 # 2; 1 # 2; 1 # 2; 1 # 2].
Proof. exact c46_case. Qed.

(** Every chain has a known stationary distribution. *)
Theorem C85_stationary : forall n p, (0 < n)%nat -> positive_below n p -> stationary n (chance n p) (realised n n p) /\ is_distribution n (realised n n p).
Proof. exact c85_stationary. Qed.
Print Assumptions C85_stationary.
Example C85_stationary_case : positive_below 3 (even 3) /\ uniform middle /\ exists us, generate 3 3 (even 3) middle 60 150 3 = Some (Ok us) /\ map Qred us = [1 # 2; 1 # 2; 1 # 2; 1 # 2].
Proof. exact c46_case. Qed.

(** At the fixed point of the iteration this is the requested distribution. *)
Theorem C85_requested : forall n p0 p, positive_below n p -> (forall x, (x < n)%nat -> refine n n p0 p x == p x) -> stationary n (chance n p) p0.
Proof. exact c85_fixpoint. Qed.
Print Assumptions C85_requested.
Example C85_requested_case : positive_below 3 (even 3) /\ (forall x, (x < 3)%nat -> refine 3 3 three (even 3) x == even 3 x) /\ stationary 3 (chance 3 (even 3)) three.
Proof. exact c85_case. Qed.

(** With bins of 1 m/s a drawn speed lies in the bin of the drawn state. *)
Theorem C86_in_bin : forall mx n p state r j u, bin_size mx n == 1 -> 0 <= snd r < 1 -> update mx n p state r = Ok (j, u) -> inject_Z (Z.of_nat j) <= u < inject_Z (Z.of_nat j) + 1.
Proof. exact c86_in_bin. Qed.
Print Assumptions C86_in_bin.
Example C86_in_bin_case : bin_size 3 3 == 1 /\ exists j u, update 3 3 (even 3) 2 (1 # 2, 3 # 4) = Ok (j, u) /\ j = 2%nat /\ Qred u = 11 # 4.
Proof. exact c86_case. Qed.

(** With other bins it does not. *)
Theorem C86_other_bin_refuted : exists mx n p state r j u, 0 < mx /\ positive_below n p /\ 0 <= fst r < 1 /\ 0 <= snd r < 1 /\ update mx n p state r = Ok (j, u) /\
  inject_Z (Z.of_nat (S j)) * bin_size mx n <= u.
Proof. exact c86_other_bin. Qed.
Print Assumptions C86_other_bin_refuted.
