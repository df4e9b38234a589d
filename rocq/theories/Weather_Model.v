(** Model of the weather used for the moisture of the bed: /repo/aeolis/utils.py:70-101 ([interp_array]) and hydro.py:193-206 ([interpolate]). Exact rationals instead of doubles. *)
From Coq Require Import String.
From Verif Require Import Base Num Utils_Model.
Open Scope Q_scope.

(** A line of the file: the time and the other columns. A file has at least one line and all lines have as many columns (numpy.loadtxt rejects others). *)
Definition line : Type := Q * list Q.
Definition column (k : nat) (l : line) : Q * Q := (fst l, nth k (snd l) 0).
(** utils.py:95-101: column by column, circular or not. *)
Definition interp_array (circular : bool) (t : Q) (first : line) (rest : list line) : list Q :=
  map (fun k => (if circular then interp_circular else interp) t (column k first) (map (column k) rest)) (seq 0 (length (snd first))).
(** hydro.py:195-206: zip ends with the shorter of the two. *)
Definition symbols : list string := ["T"; "Q"; "RH"; "P"; "U"]%string.
Definition meteo (t : Q) (first : line) (rest : list line) : list (string * Q) := combine symbols (interp_array true t first rest).
(** hydro.py:193: when the weather is read. *)
Definition next_meteo (process_moist surf_moisture : bool) (t : Q) (file : option (line * list line)) (before : option (list (string * Q))) : option (list (string * Q)) :=
  if (process_moist && surf_moisture)%bool then match file with Some (first, rest) => Some (meteo t first rest) | None => before end else before.
