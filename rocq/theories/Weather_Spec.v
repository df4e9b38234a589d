(** What the weather should be: each quantity as its own column of the file says. *)
From Coq Require Import String.
From Verif Require Import Base Num Utils_Model Hydro_Model Sea_Spec.
Open Scope Q_scope.

(** The columns of the file: temperature, radiation, precipitation, pressure, humidity, in the second to the sixth column (hydro.py:199-204). *)
Definition quantities : list (string * nat) := [("T", 1%nat); ("Q", 2%nat); ("RH", 3%nat); ("P", 4%nat); ("U", 5%nat)]%string.
(** A file as a table of numbers; the series in one of its columns, the first being the time. *)
Definition series_of (c : nat) (row : list Q) : Q * Q := (nth 0 row 0, nth c row 0).
Definition in_column (c : nat) (first : list Q) (rest : list (list Q)) : timeseries := (series_of c first, map (series_of c) rest).
(** At least six columns, sorted in time. *)
Definition weather_file (first : list Q) (rest : list (list Q)) : Prop :=
  (6 <= length first)%nat /\ (forall r, In r rest -> length r = length first) /\ Utils_Spec.series (series_of 1 first :: map (series_of 1) rest).
(** A row of the table as time and other columns. *)
Definition as_line (row : list Q) : Q * list Q := (nth 0 row 0, tl row).
(** The value under a name. *)
Definition value_of (name : string) (d : list (string * Q)) (v : Q) : Prop := exists w, In (name, w) d /\ w == v.
