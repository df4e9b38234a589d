(** Model of the clock of AeoLiS: [set_timestep], the control flow of [update] and the time loop
    of [AeoLiSRunner.run], aeolis/model.py. The physics is an input: before each update an
    observation tells what the clock-related code reads from the grids. *)
From Verif Require Import Base Num.
Open Scope Q_scope.

Inductive scheme := Euler_forward | Euler_backward | Crank_nicolson | Unknown_scheme.

(** The parameters that the clock and the control flow read. [max_bedlevel_change] is 999 when unused. *)
Record params := {
  p_dt : Q; p_accfac : Q; p_tstart : Q; p_tstop : Q;
  p_scheme : scheme; p_CFL : Q; p_max_bedlevel_change : Q;
  p_fences : bool; p_vegetation : bool; p_dune_erosion : bool }.

(** What one update reads from the grids, which have at least one cell: the first cell and the
    others of |uws|/ds, |uwn|/dn and dzb, and whether sum(uw) is zero. *)
Record obs := {
  o_calm : bool;
  o_cs : Q * list Q; o_cn : Q * list Q; o_dzb : Q * list Q }.
Definition amax (a : Q * list Q) : Q := qmaxl (fst a) (snd a).

(** The clock: current time, current time step, counter 'time' (model.py:2275-2288) and whether
    the attribute dt_array exists (it is created in print_progress only). *)
Record clock := { t : Q; dt : Q; count : nat; has_dt_array : bool }.

(** model.py:624-625 *)
Definition dtref (ob : obs) : Q := amax (o_cs ob) + amax (o_cn ob).

(** model.py:631-634, with [prev] for dt_prev *)
Definition limit_bedlevel (p : params) (ob : obs) (prev d : Q) : Q :=
  let m := amax (o_dzb ob) in
  if negb (Qeq_bool (p_max_bedlevel_change p) 999) && negb (Qeq_bool m 0) && negb (Qeq_bool prev 0)
  then qmin d (prev * p_max_bedlevel_change p / m)
  else d.

(** model.py:579-638 [set_timestep]: returns whether to go on, the new time and the new time step.
    [prev] is self.dt_prev, set at model.py:292 to the time step of the previous update. *)
Definition set_timestep (p : params) (ob : obs) (now prev req : Q) : bool * Q * Q :=
  if negb (Qltb 0 req) && Qltb req (-1) then (false, now + qabs req, req)         (* 614-617 *)
  else
    let d0 := if Qltb 0 req then req else p_dt p in                            (* 612-613, 618-619 *)
    match p_scheme p with
    | Euler_forward =>
        if Qltb 0 (p_CFL p) then
          if Qltb 0 (dtref ob)
          then (true, now, limit_bedlevel p ob prev (qmin d0 (p_CFL p / dtref ob)))  (* 626-627 *)
          else (false, now, qmin d0 1)                                            (* 628-629 *)
        else (true, now, limit_bedlevel p ob prev d0)
    | _ => (true, now, limit_bedlevel p ob prev d0)
    end.

(** The processes called by [update], in order. *)
Inductive event :=
| WindInterpolate | RotateForward | WindShear | FenceShear | VegetationShear
| HydroInterpolate | HydroUpdate | MixTopLayer | Threshold | Equilibrium | Solve | BedUpdate
| AngleOfRepose | Avalanche | WetBedReset | AverageChange | DuneErosion | Germinate | Grow
| RotateBack.

Definition when (b : bool) (l : list event) : list event := if b then l else [].

(** model.py:263-289: what precedes the time step. *)
Definition before_timestep (p : params) (ob : obs) : list event :=
  [WindInterpolate; RotateForward] ++ when (negb (o_calm ob)) [WindShear]
  ++ when (p_fences p) [FenceShear] ++ when (p_vegetation p) [VegetationShear].

(** model.py:241-354 [update]. An unknown scheme is only noticed when there is wind
    (model.py:303-320). The events executed are returned with the clock; visualisation is left out. *)
Definition update (p : params) (ob : obs) (req : Q) (c : clock) : result (clock * list event) :=
  let '(go, now, d) := set_timestep p ob (t c) (dt c) req in
  let pre := before_timestep p ob in
  if negb go then
    Ok ({| t := now; dt := d; count := count c; has_dt_array := has_dt_array c |}, pre)  (* 293-294 *)
  else
    match p_scheme p, o_calm ob with
    | Unknown_scheme, false => Raise ValueError
    | _, _ =>
        Ok ({| t := now + d * p_accfac p; dt := d; count := S (count c);
               has_dt_array := has_dt_array c |},                                  (* 346-347 *)
            pre ++ [HydroInterpolate; HydroUpdate; MixTopLayer]
            ++ when (negb (o_calm ob))
                 [Threshold; Equilibrium; Solve; BedUpdate; AngleOfRepose; Avalanche; WetBedReset; AverageChange]
            ++ when (p_dune_erosion p) [DuneErosion; AngleOfRepose; Avalanche]
            ++ when (p_vegetation p) [Germinate; Grow] ++ [RotateBack])
    end.

(** model.py:2922-2952 [print_progress]: the quotient of line 2935 fails when tstop equals tstart
    (plain Python numbers); the list dt_array exists only once the counter has been seen to be one. *)
Definition print_progress (p : params) (c : clock) : result clock :=
  if Qeq_bool (p_tstop p - p_tstart p) 0 then Raise ZeroDivisionError
  else
    let has := if Nat.eqb (count c) 1 then true else has_dt_array c in
    if has then Ok {| t := t c; dt := dt c; count := count c; has_dt_array := true |}
    else Raise AttributeError.

(** One pass of the loop model.py:2519-2524; callback and output are left out here. *)
Definition pass (p : params) (ob : obs) (c : clock) : result clock :=
  let* r := update p ob (-1) c in
  print_progress p (fst r).

(** model.py:2519: [while self.t <= self.p['tstop']]. The [k]-th update sees [env k]. [None]: the loop
    has not ended after [fuel] passes. *)
Fixpoint run_loop (p : params) (env : nat -> obs) (k fuel : nat) (c : clock) : result (option clock) :=
  if Qle_bool (t c) (p_tstop p) then
    match fuel with
    | O => Ok None
    | S f => let* c' := pass p (env k) c in run_loop p env (S k) f c'
    end
  else Ok (Some c).

(** model.py:160-161, 206: the clock after initialisation. *)
Definition initial_clock (p : params) : clock :=
  {| t := p_tstart p; dt := 0; count := 0; has_dt_array := false |}.

(** model.py:2969-2985 [print_stats]: averages per time step. *)
Definition print_stats (p : params) (c : clock) : result Q :=
  if Nat.eqb (count c) 0 then Raise ZeroDivisionError
  else Ok (p_tstop p / inject_Z (Z.of_nat (count c))).
Definition run (p : params) (env : nat -> obs) (fuel : nat) : result (option clock) :=
  let* r := run_loop p env 0 fuel (initial_clock p) in
  match r with
  | None => Ok None
  | Some c => let* _ := print_stats p c in Ok (Some c)
  end.
