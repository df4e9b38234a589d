(** Model of what the output says about sediment fluxes: /repo/aeolis/model.py:2732-2774 [output_clear], [output_update] for the grid q, together with the part of
    model.py:241-348 [update] that sets qs and qn (1444-1445, 300-321), for one cell and one fraction; and of the grid pickup (model.py:1400-1411, bed.py:223-322) as it stands after
    every step of a run (Run_Model.v). Simplifications: the grid is not rotated (alpha = 0), reals instead of floats for the fluxes. *)
From Coq Require Import QArith Reals List.
From Verif Require Import Base Num Utils_Model Bed_Model Solver_Model Run_Model.
Import ListNotations.

(** ** The flux *)
Local Open Scope R_scope.
(** qs, qn, q of a cell, the number of steps since the statistics were cleared, and the statistics of q; no value yet: [None] (plus or minus infinity). *)
Record flux := { fs : R; fn : R; fq : R; count : nat; total : R; squares : R; least : option R; most : option R }.
Definition hypot (x y : R) : R := sqrt (x * x + y * y).
(** model.py:2741-2748 *)
Definition clear (st : flux) : flux := {| fs := fs st; fn := fn st; fq := fq st; count := 0; total := 0; squares := 0; least := None; most := None |}.
(** model.py:2760-2774: first the statistics of the values in s, then q. *)
Definition tally (st : flux) : flux :=
  {| fs := fs st; fn := fn st; fq := hypot (fs st) (fn st); count := S (count st); total := total st + fq st; squares := squares st + fq st * fq st;
     least := Some (match least st with Some m => Rmin m (fq st) | None => fq st end); most := Some (match most st with Some m => Rmax m (fq st) | None => fq st end) |}.
(** A step with wind, that gives the cell these fluxes, a step without wind (model.py:300: nothing is computed), and writing output or asking to clear. *)
Inductive event := Wind (a b : R) | Calm | Clear.
Definition happen (st : flux) (x : event) : flux :=
  match x with
  | Wind a b => tally {| fs := a; fn := b; fq := fq st; count := count st; total := total st; squares := squares st; least := least st; most := most st |}
  | Calm => tally st
  | Clear => clear st
  end.
(** model.py:2575-2587 *)
Definition average (st : flux) : R := match count st with O => 0 | n => total st / INR n end.
(** model.py:2588-2593 *)
Definition variance (st : flux) : R := match count st with O | 1%nat => 0 | n => (squares st - total st * total st / INR n) / (INR n - 1) end.
(** All grids are zero at the start (model.py:187-192); output_init clears. *)
Definition at_start : flux := {| fs := 0; fn := 0; fq := 0; count := 0; total := 0; squares := 0; least := None; most := None |}.
Definition course (xs : list event) : flux := fold_left happen xs at_start.

(** ** The pickup *)
Local Open Scope Q_scope.
(** The states after the steps of a run, in their order. *)
Fixpoint history (sp : (nat -> nat -> Q) -> (nat -> Q) -> nat -> Q) (k : cfg) (e : setup) (t0 : bool) (s : state) (weather : list (option (list wind))) : result (option (list state)) :=
  match weather with
  | [] => Ok (Some [])
  | None :: rest => let* r := history sp k e false s rest in Ok (match r with None => None | Some h => Some (s :: h) end)
  | Some ws :: rest =>
    let* r := step sp k e t0 s ws in
    match r with
    | None => Ok None
    | Some (s1, _) => let* r := history sp k e false s1 rest in Ok (match r with None => None | Some h => Some (s1 :: h) end)
    end
  end.
(** s['pickup'] of a cell in the output, all fractions together. *)
Definition pickup_of (s : state) (j : nat) : Q := match nth_error (sand s) j with Some c => qsum (Bed_Model.pickup c) | None => 0 end.
(** pickup_sum (model.py:2766-2767) over the steps of a run. *)
Definition pickup_sum (h : list state) (j : nat) : Q := qsum (map (fun s => pickup_of s j) h).
