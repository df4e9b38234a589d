(** Independent vocabulary for the clock properties. *)
From Verif Require Import Base Num Time_Model.
Open Scope Q_scope.

Definition implicit (p : params) : Prop := p_scheme p = Euler_backward \/ p_scheme p = Crank_nicolson.
(** No maximum bed level change configured. *)
Definition unlimited (p : params) : Prop := p_max_bedlevel_change p == 999.
Definition limited (p : params) : Prop := ~ unlimited p /\ 0 < p_max_bedlevel_change p.

(** Processes that change moisture, bed, transport or vegetation. *)
Definition morphology (e : event) : Prop :=
  match e with
  | WindInterpolate | RotateForward | WindShear | FenceShear | VegetationShear | RotateBack => False
  | _ => True
  end.

(** [m] is the largest value among the cells. *)
Definition largest (m : Q) (cells : Q * list Q) : Prop :=
  In m (fst cells :: snd cells) /\ forall x, In x (fst cells :: snd cells) -> x <= m.
Definition cell (x : Q) (cells : Q * list Q) : Prop := In x (fst cells :: snd cells).

(** Number of time points tstart, tstart+h, ... that do not exceed tstop. *)
Definition points (tstart tstop h : Q) : nat := Z.to_nat (Qfloor ((tstop - tstart) / h) + 1).

(** What print_progress requires: nothing was counted yet or its list exists. *)
Definition progress_ready (c : clock) : Prop := count c = 0%nat \/ has_dt_array c = true.
