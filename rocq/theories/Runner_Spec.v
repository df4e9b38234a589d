(** Independent specifications for the output properties. *)
From Verif Require Import Base Num State_Model Runner_Model.
Open Scope Q_scope.

(** A name that contains neither of the separators of statistics. *)
Definition plain (k : text) : Prop := ~ In "_"%char k /\ ~ In "."%char k.

(** What the interface reports for variable [k] given the grids [m]. *)
Definition reports (m : model Q) (k : text) (q : Q) : Prop := State_Model.get_var Qdiv m k = Ok (Some q).

(** ** Statistics of a list of values *)
Definition count_of (l : list Q) : Q := inject_Z (Z.of_nat (length l)).
Definition mean (l : list Q) : Q := qsum l / count_of l.
(** Sample variance: squared deviations from the mean. *)
Definition sample_variance (l : list Q) : Q :=
  qsum (map (fun x => (x - mean l) * (x - mean l)) l) / (count_of l - 1).

Inductive statistic := Min | Max | Sum | Avg | Var.
Definition stat_name (e : statistic) : text :=
  match e with Min => txt "min" | Max => txt "max" | Sum => txt "sum" | Avg => txt "avg" | Var => txt "var" end.
Definition stat_of (e : statistic) (l : list Q) (v : val) : Prop :=
  match e, v with
  | Min, PosInf => l = []
  | Min, Num q => In q l /\ forall x, In x l -> q <= x
  | Max, NegInf => l = []
  | Max, Num q => In q l /\ forall x, In x l -> x <= q
  | Sum, Num q => q == qsum l
  | Avg, Num q => match l with [] => q == 0 | _ => q == mean l end
  | Var, Num q => match l with [] | [_] => q == 0 | _ => q == sample_variance l end
  | _, _ => False
  end.

(** ** The values of variable [k] since the statistics were last reset. They are reset when output
    is written, and at an update that follows a query with reset or a jump in time. *)
Record tracked := { seen : list Q; reset_asked : bool; jumped : bool; now : Q; last_out : Q }.
Definition track1 (c : config) (k : text) (tr : tracked) (x : call) : tracked :=
  match x with
  | Update a =>
      match State_Model.get_var Qdiv (new_grids a) k with
      | Ok (Some v) =>
          {| seen := (if reset_asked tr || jumped tr then [] else seen tr) ++ [v];
             reset_asked := false; jumped := Qltb (new_dt a) (-1); now := new_t a; last_out := last_out tr |}
      | _ => tr
      end
  | Get _ b =>
      {| seen := seen tr; reset_asked := b; jumped := jumped tr; now := now tr; last_out := last_out tr |}
  | Write =>
      if Qle_bool (times c) (now tr - last_out tr) || Qeq_bool (now tr) 0
      then {| seen := []; reset_asked := reset_asked tr; jumped := jumped tr; now := now tr; last_out := now tr |}
      else tr
  end.
Definition track (c : config) (k : text) (tstart : Q) (xs : list call) : tracked :=
  fold_left (track1 c k) xs {| seen := []; reset_asked := false; jumped := false; now := tstart; last_out := 0 |}.

(** ** Output schedule: [written] are the output times among the time [points], a list of increasing
    times. *)
Definition well_scheduled (interval : Q) (points written : list Q) : Prop :=
  (forall w, In w written -> In w points) /\
  hd_error written = hd_error points /\
  forall pre a post, written = pre ++ a :: post ->
    match post with
    | [] => forall x, In x points -> a < x -> x - a < interval
    | b :: _ => interval <= b - a /\ a < b /\ forall x, In x points -> a < x -> x < b -> x - a < interval
    end.

(** The calls of the time loop (model.py:2518-2523), without callback. *)
Definition loop_calls (l : list after) : list call := Write :: flat_map (fun a => [Update a; Write]) l.

(** ** What the names of grids and requested outputs have to satisfy for a model [m]. *)
Definition supports (c : config) (m : model Q) : Prop :=
  forall k exts, In (k, exts) (outvars c) -> plain k /\ In k (dkeys (vals (s m))) /\ exists q, reports m k q.
(** The next call cannot fail for a reason that lies in the call itself. *)
Definition sane (c : config) (x : call) : Prop :=
  match x with
  | Update a => supports c (new_grids a)
  | Get var _ => plain var /\ var <> txt "Ct" /\ var <> txt "Cu"
  | Write => True
  end.

(** ** The output file: name of the file variable for statistic [e] of variable [k], and the value
    the interface gives for it. *)
Definition out_name (k : text) (e : option text) : text :=
  match e with None => k | Some x => k ++ txt "_" ++ x end.
Definition value_of (r : runner) (k : text) (e : option text) (v : val) : Prop :=
  match e with
  | None => exists q, reports (grids r) k q /\ v = Num q
  | Some x => get_statistic r k x = Ok v
  end.
Definition prefix {A} (l l' : list A) : Prop := exists t, l' = l ++ t.
(** Everything in file [f] is still there in file [f']. *)
Definition extends (f f' : ncfile) : Prop :=
  prefix (nc_time f) (nc_time f') /\ prefix (nc_bounds f) (nc_bounds f') /\
  forall k l, dget k (nc_vars f) = Some l -> exists l', dget k (nc_vars f') = Some l' /\ prefix l l'.
(** Output intervals follow each other without gap, starting at time 0. *)
Fixpoint contiguous (from : Q) (times : list Q) (bounds : list (Q * Q)) : Prop :=
  match times, bounds with
  | [], [] => True
  | x :: ts, (lo, hi) :: bs => lo = from /\ hi = x /\ contiguous x ts bs
  | _, _ => False
  end.
