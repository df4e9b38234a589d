(** Property theorems about the clock: C10, C11, C12. *)
From Verif Require Import Base Num Time_Model Time_Spec Time_Proofs Time_Cases.
Open Scope Q_scope.

(** C10. With the explicit scheme a positive time step is only an upper bound, and skipping in time
    executes the wind, fence and vegetation shear processes. *)
Theorem C10_explicit_scheme_refuted : exists p ob req c c' ev,
  0 < req /\ update p ob req c = Ok (c', ev) /\ p_scheme p = Euler_forward /\ ~ t c' == t c + req * p_accfac p.
Proof. exact explicit_not_requested. Qed.
Print Assumptions C10_explicit_scheme_refuted.
Theorem C10_skip_runs_processes_refuted : exists p ob req c c' ev,
  req < -1 /\ update p ob req c = Ok (c', ev) /\ In FenceShear ev /\ In WindShear ev.
Proof. exact skip_runs_processes. Qed.
Print Assumptions C10_skip_runs_processes_refuted.
Theorem C10_requested_step_partial : forall p ob req c, implicit p -> unlimited p -> 0 < req ->
  exists c' ev, update p ob req c = Ok (c', ev) /\ t c' == t c + req * p_accfac p /\ count c' = S (count c).
Proof. exact step_requested. Qed.
Print Assumptions C10_requested_step_partial.
Theorem C10_configured_step_partial : forall p ob req c, implicit p -> unlimited p -> -1 <= req -> req <= 0 ->
  exists c' ev, update p ob req c = Ok (c', ev) /\ t c' == t c + p_dt p * p_accfac p /\ count c' = S (count c).
Proof. exact step_configured. Qed.
Print Assumptions C10_configured_step_partial.
Example C10_implicit_ex : implicit base /\ unlimited base /\ 0 < p_dt base * p_accfac base /\ p_tstart base < p_tstop base.
Proof. exact base_implicit. Qed.
(** Explicit scheme: the largest step that is at most the requested one and satisfies the CFL condition. *)
Theorem C10_explicit_step : forall p ob req c ms mn,
  p_scheme p = Euler_forward -> 0 < p_CFL p -> unlimited p -> 0 < p_accfac p ->
  0 < req -> largest ms (o_cs ob) -> largest mn (o_cn ob) -> 0 < ms + mn ->
  exists c' ev, update p ob req c = Ok (c', ev) /\ t c' == t c + dt c' * p_accfac p /\
    0 < dt c' /\ dt c' <= req /\ dt c' * (ms + mn) <= p_CFL p /\
    (dt c' == req \/ dt c' * (ms + mn) == p_CFL p).
Proof. exact step_explicit. Qed.
Print Assumptions C10_explicit_step.
Example C10_explicit_step_ex : (p_scheme explicit = Euler_forward /\ 0 < p_CFL explicit /\ unlimited explicit /\ 0 < p_dt explicit
  /\ 0 < p_accfac explicit /\ p_tstart explicit < p_tstop explicit)
  /\ largest 10 (o_cs windy) /\ largest 0 (o_cn windy) /\ 0 < 10 + 0.
Proof. exact (conj explicit_ok windy_largest). Qed.
Theorem C10_skip_partial : forall p ob req c, req < -1 ->
  exists c' ev, update p ob req c = Ok (c', ev) /\ t c' == t c - req /\ count c' = count c /\
    forall e, In e ev -> ~ morphology e.
Proof. exact step_skip. Qed.
Print Assumptions C10_skip_partial.
Example C10_skip_partial_ex : exists ev, update base windy (-3600) (initial_clock base)
  = Ok ({| t := 3600; dt := -3600; count := 0; has_dt_array := false |}, ev).
Proof. exact ex_skip. Qed.

(** C11. A run need not end: with the explicit scheme in calm weather the clock stands still, and
    with a maximum bed level change it can converge to a time before tstop; a run with tstart equal to
    tstop fails. *)
Theorem C11_explicit_calm_refuted : exists p env, p_scheme p = Euler_forward /\ 0 < p_dt p /\ p_tstart p < p_tstop p /\
  forall fuel, run p env fuel = Ok None.
Proof. exact calm_stuck_refuted. Qed.
Print Assumptions C11_explicit_calm_refuted.
Theorem C11_bedlevel_limit_calm_refuted : exists p env, implicit p /\ 0 < p_dt p * p_accfac p /\ p_tstart p < p_tstop p /\
  forall fuel, run p env fuel = Ok None.
Proof. exact stall_refuted. Qed.
Print Assumptions C11_bedlevel_limit_calm_refuted.
Theorem C11_zero_length_refuted : exists p env, implicit p /\ unlimited p /\ 0 < p_dt p * p_accfac p /\ p_tstart p <= p_tstop p /\
  forall fuel, run p env (S fuel) = Raise ZeroDivisionError.
Proof. exact zero_length_run. Qed.
Print Assumptions C11_zero_length_refuted.
(** The general form of the first two. *)
Theorem C11_explicit_calm_stuck : forall p env, p_scheme p = Euler_forward -> 0 < p_CFL p ->
  ~ p_tstart p == p_tstop p -> (forall k, dtref (env k) <= 0) ->
  forall fuel k c, has_dt_array c = true -> t c <= p_tstop p -> run_loop p env k fuel c = Ok None.
Proof. exact explicit_calm_stuck. Qed.
Print Assumptions C11_explicit_calm_stuck.
Theorem C11_explicit_calm_start : forall p env, p_scheme p = Euler_forward -> 0 < p_CFL p ->
  p_tstart p < p_tstop p -> dtref (env 0%nat) <= 0 -> forall fuel, run p env (S fuel) = Raise AttributeError.
Proof. exact explicit_calm_start. Qed.
Print Assumptions C11_explicit_calm_start.
Example C11_explicit_calm_ex : p_scheme explicit = Euler_forward /\ 0 < p_CFL explicit /\ ~ p_tstart explicit == p_tstop explicit
  /\ dtref calm <= 0 /\ p_tstart explicit < p_tstop explicit.
Proof. exact ex_calm_stuck. Qed.
Theorem C11_bedlevel_limit_stall : forall p env m, implicit p -> limited p -> ~ p_tstart p == p_tstop p -> 0 < p_accfac p -> 0 < p_dt p ->
  p_max_bedlevel_change p < m -> (forall k, largest m (o_dzb (env k))) ->
  forall fuel k c, progress_ready c -> 0 < dt c ->
  t c + p_accfac p * dt c * p_max_bedlevel_change p / (m - p_max_bedlevel_change p) <= p_tstop p ->
  run_loop p env k fuel c = Ok None.
Proof. exact calm_stall. Qed.
Print Assumptions C11_bedlevel_limit_stall.
Example C11_bedlevel_limit_stall_ex : implicit limited1 /\ limited limited1 /\ ~ p_tstart limited1 == p_tstop limited1 /\ 0 < p_accfac limited1
  /\ 0 < p_dt limited1 /\ p_max_bedlevel_change limited1 < 2 /\ largest 2 (o_dzb stale) /\
  60 + p_accfac limited1 * 60 * p_max_bedlevel_change limited1 / (2 - p_max_bedlevel_change limited1) <= p_tstop limited1.
Proof. exact ex_stall. Qed.
(** What holds: implicit schemes without that limit, for every weather. *)
Theorem C11_number_of_updates_partial : forall p env, implicit p -> unlimited p -> 0 < p_dt p * p_accfac p -> p_tstart p < p_tstop p ->
  forall fuel, (points (p_tstart p) (p_tstop p) (p_dt p * p_accfac p) <= fuel)%nat ->
  exists c, run p env fuel = Ok (Some c) /\
    count c = points (p_tstart p) (p_tstop p) (p_dt p * p_accfac p) /\
    t c == p_tstart p + zq (count c) * (p_dt p * p_accfac p) /\
    p_tstop p < t c /\ t c - p_dt p * p_accfac p <= p_tstop p.
Proof. exact run_steps. Qed.
Print Assumptions C11_number_of_updates_partial.
Example C11_number_of_updates_partial_ex : points 0 3600 60 = 61%nat /\ points 0 3599 60 = 60%nat.
Proof. exact ex_points. Qed.
(** Explicit scheme while the wind blows everywhere on the way, bounded by [M]. *)
Theorem C11_explicit_ends_partial : forall p env M, p_scheme p = Euler_forward -> 0 < p_CFL p -> unlimited p ->
  0 < p_dt p -> 0 < p_accfac p -> p_tstart p < p_tstop p ->
  (forall k ms mn, largest ms (o_cs (env k)) -> largest mn (o_cn (env k)) -> 0 < ms + mn <= M) ->
  forall fuel, (points (p_tstart p) (p_tstop p) (qmin (p_dt p) (p_CFL p / M) * p_accfac p) <= fuel)%nat ->
  exists c, run p env fuel = Ok (Some c) /\ p_tstop p < t c /\
    (count c <= points (p_tstart p) (p_tstop p) (qmin (p_dt p) (p_CFL p / M) * p_accfac p))%nat.
Proof. exact run_explicit. Qed.
Print Assumptions C11_explicit_ends_partial.
Example C11_explicit_ends_partial_ex : (p_scheme explicit = Euler_forward /\ 0 < p_CFL explicit /\ unlimited explicit /\ 0 < p_dt explicit
  /\ 0 < p_accfac explicit /\ p_tstart explicit < p_tstop explicit) /\
  forall (k : nat) ms mn, largest ms (o_cs windy) -> largest mn (o_cn windy) -> 0 < ms + mn <= 10.
Proof. exact (conj explicit_ok windy_bounded). Qed.

(** C10. A scheme that does not exist is only noticed in the first step with wind; calm steps are made. *)
Theorem C10_unknown_scheme : forall p ob req c, p_scheme p = Unknown_scheme -> -1 <= req ->
  (o_calm ob = false -> update p ob req c = Raise ValueError) /\
  (o_calm ob = true -> exists c' ev, update p ob req c = Ok (c', ev) /\ count c' = S (count c)).
Proof. exact unknown_scheme. Qed.
Print Assumptions C10_unknown_scheme.
Example C10_unknown_scheme_ex : p_scheme (with_scheme Unknown_scheme base) = Unknown_scheme /\ o_calm windy = false /\ o_calm calm = true /\
  update (with_scheme Unknown_scheme base) windy (-1) (initial_clock base) = Raise ValueError.
Proof. exact ex_unknown. Qed.

(** C11. A run that ends before it starts makes no step and fails on its statistics. *)
Theorem C11_no_step : forall p env fuel, p_tstop p < p_tstart p -> run p env fuel = Raise ZeroDivisionError.
Proof. exact no_step. Qed.
Print Assumptions C11_no_step.
Example C11_no_step_ex : p_tstop (with_stop (-60) base) < p_tstart (with_stop (-60) base).
Proof. exact ex_no_step. Qed.

(** C12. When the bed eroded everywhere the next time step is negative; erosion is not limited. *)
Theorem C12_erosion_backwards_refuted : exists p ob c c' ev, implicit p /\ limited p /\ 0 < p_dt p /\ 0 < dt c /\
  update p ob (-1) c = Ok (c', ev) /\ dt c' < 0 /\ t c' < t c.
Proof. exact erosion_backwards. Qed.
Print Assumptions C12_erosion_backwards_refuted.
Theorem C12_erosion_unbounded_refuted : exists p ob c c' ev x, implicit p /\ limited p /\ 0 < p_dt p /\ 0 < dt c /\
  (exists y, cell y (o_dzb ob) /\ 0 < y) /\ cell x (o_dzb ob) /\
  update p ob (-1) c = Ok (c', ev) /\ x * (dt c' / dt c) < - p_max_bedlevel_change p.
Proof. exact erosion_unbounded. Qed.
Print Assumptions C12_erosion_unbounded_refuted.
(** When some cell was raised: positive, not larger than configured, and accretion is limited. *)
Theorem C12_accretion_partial : forall p ob now prev req, limited p -> implicit p -> -1 <= req -> 0 < p_dt p -> 0 < prev ->
  (exists x, cell x (o_dzb ob) /\ 0 < x) ->
  exists d, set_timestep p ob now prev req = (true, now, d) /\ 0 < d /\
    d <= (if Qltb 0 req then req else p_dt p) /\
    forall x, cell x (o_dzb ob) -> x * (d / prev) <= p_max_bedlevel_change p.
Proof. exact limited_step. Qed.
Print Assumptions C12_accretion_partial.
Example C12_accretion_partial_ex : limited centimetres /\ implicit centimetres /\ 0 < p_dt centimetres /\
  (exists x, cell x (o_dzb (changed (1#2) (-1))) /\ 0 < x) /\
  set_timestep centimetres (changed (1#2) (-1)) 60 60 (-1) = (true, 60, 60 * (1#10) / (1#2)).
Proof. exact ex_limited. Qed.
(** On the first update, or without a configured maximum, the step is the configured one. *)
Theorem C12_first_step : forall p ob now prev req, implicit p -> -1 <= req -> prev == 0 \/ unlimited p ->
  set_timestep p ob now prev req = (true, now, if Qltb 0 req then req else p_dt p).
Proof. exact unlimited_or_first. Qed.
Print Assumptions C12_first_step.
Example C12_first_step_ex : set_timestep centimetres (changed 5 5) 0 0 (-1) = (true, 0, 60).
Proof. exact ex_first_step. Qed.
