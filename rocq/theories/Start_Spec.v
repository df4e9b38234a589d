(** What the theorems about the start of a run speak of. *)
From Verif Require Import Base Config_Model State_Model Start_Model.

(** The files of a world, whatever the working directory. *)
Definition same_files (w w' : world) : Prop := forall p, disk w' p = disk w p.
(** A reference to function [func] of file [fname]. *)
Definition reference (fname func : text) : text := fname ++ ":"%char :: func.
Definition no_colon (t : text) : Prop := ~ In ":"%char t.
(** A text that, in whatever case, reads DEFAULT. *)
Definition says_default (t : text) : Prop := map upper t = txt "DEFAULT".
(** A file parameter whose array has two dimensions and at least n columns, or which is no array. *)
Definition wide_enough (n : nat) (g : given) : Prop :=
  match g with Array2 _ c _ => n <= c | Array0 _ | Array1 _ => False | Absent | Unread _ | Number _ => True end.
Definition an_array (g : given) : Prop := match g with Array2 _ _ _ | Array0 _ | Array1 _ => True | _ => False end.
(** What check_configuration asks for. *)
Definition acceptable (i : inputs) : Prop :=
  an_array (xgrid i) /\ an_array (bed i) /\ (an_array (ygrid i) \/ conf_ny i = 0) /\ wide_enough 3 (wind i) /\ wide_enough 2 (tide i) /\ wide_enough 6 (meteo i).
(** The number of time steps of a run in which all time steps are dt: the last one starts at or before tstop and ends after it. *)
Definition number_of_steps (tstart tstop dt : Q) (n : nat) : Prop :=
  (tstart + inject_Z (Z.of_nat n) * dt > tstop /\ tstart + (inject_Z (Z.of_nat n) - 1) * dt <= tstop /\ (0 < n)%nat)%Q.
(** The size of a variable. *)
Definition size (g : Start_Model.grid) : nat := fold_right Nat.mul 1 (gshape g).
(** Names of directories and files: not empty, without a slash. *)
Definition good_names (l : list text) : Prop := Forall (fun n => n <> [] /\ ~ In "/"%char n) l.
(** A path with [k] slashes before the first name and [k + 1] after each. *)
Definition written (k : nat) (l : list text) : text := repeat "/"%char k ++ List.concat (map (fun n => n ++ repeat "/"%char (S k)) l).
