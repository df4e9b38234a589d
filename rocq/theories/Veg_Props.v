(** Properties C42, C87-C89: vegetation. *)
From Coq Require Import Reals.
From Verif Require Import Base Veg_Model Veg_Spec Veg_Proofs Veg_Cases.
Open Scope R_scope.

(** After every step, from any state, cover and height are between zero and their maxima and belong together; with the Duran and Moore formulation for time steps up to its time scale. *)
Theorem C42_physical : forall p e c, usual p -> veggrowth_type p = Orig \/ (0 < V_ver p /\ short_step p) -> physical p (step p e c) /\ (veggrowth_type p = DuranMoore -> rhoveg (step p e c) <= rhoveg_max p).
Proof. exact always_physical. Qed.
Print Assumptions C42_physical.
Example C42_physical_case : usual (dune DuranMoore 1 1) /\ 0 < V_ver (dune DuranMoore 1 1) /\ short_step (dune DuranMoore 1 1) /\ usual (dune Orig 1 1) /\ 0 < rhoveg grass.
Proof. exact c42_physical_case. Qed.

(** Under water and below the minimum elevation there is none. *)
Theorem C42_dead : forall p e c, drowned p e \/ too_low p e -> empty (step p e c) /\ germ (step p e c) = 0 /\ lat (step p e c) = 0.
Proof. exact dead. Qed.
Print Assumptions C42_dead.
Example C42_dead_case : drowned (dune Orig 1 1) storm /\ 0 < rhoveg grass.
Proof. exact c42_dead_case. Qed.

(** Bare ground stays bare without germination and spreading. *)
Theorem C42_bare : forall p es, usual p -> Forall (no_seed p) es -> empty (history p es bare).
Proof. exact c42_bare. Qed.
Print Assumptions C42_bare.
Example C42_bare_case : usual (dune Orig 1 1) /\ Forall (no_seed (dune Orig 1 1)) [dry; storm; dry] /\ 0 < higher (rhoveg bare) (neighbours dry).
Proof. exact c42_bare_case. Qed.

(** Without vertical growth the plants of the original formulation never grow. *)
Theorem C42_no_growth : forall p es, 0 < hveg_max p -> veggrowth_type p = Orig -> V_ver p <= 0 -> forall c, dhveg c = 0 -> 0 <= hveg c -> 0 <= hveg (history p es c) <= hveg c.
Proof. exact no_growth. Qed.
Print Assumptions C42_no_growth.
Example C42_no_growth_case : 0 < hveg_max (dune Orig 0 1) /\ V_ver (dune Orig 0 1) <= 0 /\ dhveg grass = 0 /\ 0 <= hveg grass.
Proof. exact c42_off_case. Qed.

(** Drowned plants grow again without germination once the water is gone. *)
Theorem C42_regrows_refuted : exists p c e1 e2, usual p /\ physical p c /\ drowned p e1 /\ empty (step p e1 c) /\ no_seed p e2 /\ 0 < rhoveg (step p e2 (step p e1 c)).
Proof. exact c42_regrows. Qed.
Print Assumptions C42_regrows_refuted.

(** With the Duran and Moore formulation cover grows without vertical growth. *)
Theorem C42_grows_off_refuted : exists p c e, usual p /\ V_ver p = 0 /\ physical p c /\ rhoveg c < rhoveg (step p e c).
Proof. exact c42_grows_off. Qed.
Print Assumptions C42_grows_off_refuted.

(** With an acceleration factor of 400 it exceeds one. *)
Theorem C42_cover_refuted : exists p c e, usual p /\ 0 < V_ver p /\ physical p c /\ 1 < rhoveg (step p e c).
Proof. exact c42_overshoots. Qed.
Print Assumptions C42_cover_refuted.

(** The chance of germination in a year is the given one for every time step. *)
Theorem C87_germination : forall p, 0 < dt_opt p -> 0 < accfac p -> 0 <= germination p <= 1 -> 0 <= per_step p (germination p) <= 1 /\ power (1 - per_step p (germination p)) (steps_per_year p) = 1 - germination p.
Proof. exact c87_year. Qed.
Print Assumptions C87_germination.
Example C87_germination_case : 0 <= germination sown <= 1 /\ 0 <= lateral_spread sown <= 1 /\ 0 < dt_opt sown.
Proof. exact c87_case. Qed.

(** So in the time steps of a year, if they fill it, it does not germinate with the chance that is left. *)
Theorem C87_all_steps : forall p n, 0 < dt_opt p -> 0 < accfac p -> 0 <= germination p <= 1 -> INR n * (dt_opt p * accfac p) = 31557600 -> (1 - per_step p (germination p)) ^ n = 1 - germination p.
Proof. exact c87_all_steps. Qed.
Print Assumptions C87_all_steps.
Example C87_all_steps_case : 0 <= germination meadow <= 1 /\ 0 < dt_opt meadow /\ 0 < accfac meadow /\ INR (Z.to_nat 8766) * (dt_opt meadow * accfac meadow) = 31557600.
Proof. exact c87_all_case. Qed.

(** Likewise the chance of spreading over a metre in a time step. *)
Theorem C87_spreading : forall p dx, 0 < dt_opt p -> 0 < accfac p -> 0 <= lateral_spread p <= 1 -> 0 < dx -> 0 <= per_cell p dx <= 1 /\ power (1 - per_cell p dx) dx = 1 - per_step p (lateral_spread p).
Proof. exact per_metre. Qed.
Print Assumptions C87_spreading.
Example C87_spreading_case : 0 <= germination sown <= 1 /\ 0 <= lateral_spread sown <= 1 /\ 0 < dt_opt sown.
Proof. exact c87_case. Qed.

(** A cell that germinates, is neither drowned nor too low and not buried faster than it grows, has plants after the step (original formulation). *)
Theorem C88_grows : forall p e c, usual p -> veggrowth_type p = Orig -> seeded p e -> habitable p e -> outgrows p e -> empty c -> 0 < hveg (step p e c) /\ 0 < rhoveg (step p e c).
Proof. exact seeded_grows. Qed.
Print Assumptions C88_grows.
Example C88_grows_case : usual sown /\ veggrowth_type sown = Orig /\ seeded sown dry /\ habitable sown dry /\ outgrows sown dry /\ empty bare.
Proof. exact c88_case. Qed.

(** With the Duran and Moore formulation it never has. *)
Theorem C88_never_refuted : exists p e c, usual p /\ seeded p e /\ habitable p e /\ outgrows p e /\ empty c /\ forall es, empty (history p es (step p e c)).
Proof. exact c88_never. Qed.
Print Assumptions C88_never_refuted.

(** The further burial is from its optimum, the less cover there is after the step. *)
Theorem C89_burial : forall p e c d1 d2, usual p -> physical p c -> Rabs (d1 - dzb_opt p) <= Rabs (d2 - dzb_opt p) ->
  rhoveg (grow p (buried e d2) c) <= rhoveg (grow p (buried e d1) c).
Proof. exact burial_harms. Qed.
Print Assumptions C89_burial.
Example C89_burial_case : usual (dune Orig 1 1) /\ physical (dune Orig 1 1) grass /\ Rabs (1 - dzb_opt (dune Orig 1 1)) <= Rabs (- 2 - dzb_opt (dune Orig 1 1)) /\ active (dune Orig 1 1) grass = true.
Proof. exact c89_case. Qed.

(** A model started from a vegetation file has the covers of the file, negative ones as zero, plants germinated where there are some. *)
Theorem C42_start : forall p v c, 0 < hveg_max p -> v <= 1 ->
  physical p (initialize p (Some v) c) /\ lat (initialize p (Some v) c) = 0 /\
  (v <= 0 -> empty (initialize p (Some v) c) /\ germ (initialize p (Some v) c) = 0) /\
  (0 < v -> rhoveg (initialize p (Some v) c) = v /\ germ (initialize p (Some v) c) = 1).
Proof. exact start_file. Qed.
Print Assumptions C42_start.
Example C42_start_case : 0 < hveg_max (dune Orig 1 1) /\ 1 / 4 <= 1 /\ 0 < 1 / 4.
Proof. exact start_case. Qed.
