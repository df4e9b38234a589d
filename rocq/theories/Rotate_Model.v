(** Model of the rotation of the grid during an update: aeolis/utils.py rotate and aeolis/model.py
    grid_rotate. Real numbers; a matrix of coordinates or of vector components is the list of its
    cells, as pairs. *)
From Coq Require Import Reals.
From Verif Require Import Base Num Time_Model.
Open Scope R_scope.

Notation cells := (list (R * R)).

(** utils.py:325 *)
Definition radians (a : R) : R := a / 180 * PI.

(** utils.py:319-334 [rotate]: the row vector (x, y), relative to the origin, times the matrix. *)
Definition rotate1 (a : R) (origin v : R * R) : R * R :=
  let xr := fst v - fst origin in
  let yr := snd v - snd origin in
  let c := cos (radians a) in
  let s := sin (radians a) in
  (xr * c + yr * s + fst origin, xr * - s + yr * c + snd origin).
Definition rotate (l : cells) (a : R) (origin : R * R) : cells := map (rotate1 a origin) l.

(** numpy.mean of a coordinate *)
Definition rsum (l : list R) : R := fold_right Rplus 0 l.
Definition rmean (l : list R) : R := rsum l / INR (length l).

(** The part of the state that grid_rotate touches, and the saltation velocity [us], which it does
    not touch. [q] and [us] have one list of cells per fraction. *)
Record vstate := {
  xy : cells; tau : cells; tau0 : cells; ustar : cells; ustar0 : cells; uw : cells;
  q : list cells; us : list cells; udir : list R }.

(** model.py:640-660 [grid_rotate] *)
Definition grid_rotate (a : R) (st : vstate) : vstate :=
  {| xy := rotate (xy st) a (rmean (map fst (xy st)), rmean (map snd (xy st)));
     tau := rotate (tau st) a (0, 0); tau0 := rotate (tau0 st) a (0, 0);
     ustar := rotate (ustar st) a (0, 0); ustar0 := rotate (ustar0 st) a (0, 0);
     uw := rotate (uw st) a (0, 0);
     q := map (fun l => rotate l a (0, 0)) (q st);
     us := us st;
     udir := map (fun d => d + a) (udir st) |}.

(** The state after a list of events of an update (Time_Model): all processes other than the two
    rotations (model.py:269, 350) are an input [f]. *)
Definition apply_event (alpha : R) (f : event -> vstate -> vstate) (st : vstate) (e : event) : vstate :=
  match e with
  | RotateForward => grid_rotate alpha st
  | RotateBack => grid_rotate (- alpha) st
  | _ => f e st
  end.
Definition apply_events (alpha : R) (f : event -> vstate -> vstate) (ev : list event) (st : vstate) : vstate :=
  fold_left (apply_event alpha f) ev st.
