(** Vocabulary of properties C101-C105, independent of the functions modelled. *)
From Verif Require Import Base State_Model Netcdf_Model.

(** The size of a dimension of the file when [nt] times have been written. *)
Definition dim_size (dims : dict (option nat)) (nt : nat) (d : text) (n : nat) : Prop :=
  dget d dims = Some (Some n) \/ (dget d dims = Some None /\ n = nt).
(** The array written to a variable of the file has this shape, one such array for each time. *)
Definition holds_shape (dims : dict (option nat)) (nt : nat) (v : ncvar) (sh : list nat) : Prop :=
  Forall2 (dim_size dims nt) (vdims v) (nt :: sh).

(** The name under which the statistic [ext] of a grid, or the grid itself, is found. *)
Definition named (v0 : text) (ext : option text) (n : text) : Prop :=
  (ext = None /\ n = v0) \/ (exists e, ext = Some e /\ n = v0 ++ "_"%char :: e).
(** The file has a variable of this name. *)
Definition in_file (n : text) (f : list ncvar) : Prop := exists v, In v f /\ vname v = n.
(** What was asked for: the grid [v0], with the statistic [ext]. *)
Definition asked (outvars : dict (list (option text))) (v0 : text) (ext : option text) : Prop :=
  exists exts, In (v0, exts) outvars /\ In ext exts.
(** The names of everything asked for that the model has, in order. *)
Fixpoint asked_names (known : list text) (dimensions : dict (list text))
    (outvars : dict (list (option text))) : list text :=
  match outvars with
  | [] => []
  | (v0, exts) :: r =>
      (if mem v0 known && dmem v0 dimensions
       then map (fun ext => match ext with None => v0 | Some e => v0 ++ "_"%char :: e end) exts
       else [])
      ++ asked_names known dimensions r
  end.
(** Names the file uses for its coordinates. *)
Definition reserved : list text :=
  map txt ["s"; "n"; "x"; "y"; "layers"; "fractions"; "lat"; "lon"; "time"; "x_bounds"; "y_bounds";
           "lat_bounds"; "lon_bounds"; "time_bounds"; "crs"]%string.

(** ** The documentation of a variable: its name in quotes, and a comment with its unit in brackets. *)
Definition blank (t : text) : Prop := forall c, In c t -> In (nat_of_ascii c) [9; 10; 11; 12; 13; 28; 29; 30; 31; 32].
(** A line that starts with the name in quotes and a comma, with a comment containing [unit]. *)
Definition documents (line v u : text) : Prop :=
  exists sp c1 rest, blank sp /\ In "#"%char c1 /\ ~ In "["%char c1 /\ ~ In "'"%char c1 /\ ~ In "]"%char u /\
  ~ In "'"%char v /\ line = sp ++ "'"%char :: v ++ txt "'," ++ c1 ++ "["%char :: u ++ "]"%char  :: rest.
(** The same with nothing but white space and the hash between name and unit. *)
Definition documents_plainly (line v u : text) : Prop :=
  exists sp s1 s2 rest, blank sp /\ blank s1 /\ blank s2 /\
  line = sp ++ "'"%char :: v ++ txt "'," ++ s1 ++ "#"%char :: s2 ++ "["%char :: u ++ "]"%char :: rest.
(** No bracket closes later on, and no quote is followed by a comma. *)
Definition ends_here (rest : text) : Prop := ~ In "]"%char rest /\ ~ In "'"%char rest.
Definition documents_cleanly (line v u : text) : Prop :=
  exists sp s1 s2 rest, blank sp /\ blank s1 /\ blank s2 /\ ends_here rest /\ ~ In "'"%char u /\
  line = sp ++ "'"%char :: v ++ txt "'," ++ s1 ++ "#"%char :: s2 ++ "["%char :: u ++ "]"%char :: rest.
(** CF conventions write 1 for a quantity without unit. *)
Definition cf_unit (u : text) : text := if text_eqb u (txt "-") then txt "1" else u.
(** The unit of a statistic: that of the variance is the square. *)
Definition statistic_unit (ext : option text) (u : text) : text :=
  match ext with
  | Some e => if text_eqb e (txt "var") then "("%char :: u ++ txt ")^2" else u
  | None => u
  end.

(** Variables for which no unit is found: the first fourteen have one in the documentation, the others do
    not. *)
Definition without_unit : list text :=
  map txt ["moist"; "moist_swr"; "h_delta"; "gw"; "gw_prev"; "wetting"; "scan_w"; "scan_d"; "scan_w_moist"; "scan_d_moist";
           "w_h"; "d_h"; "w_hdelta"; "d_hdelta"; "drhoveg"; "germinate"; "lateral"; "vegfac"; "fence_height"; "u0"]%string.

(** ** Bounds: CF conventions, section 7.1: the dimensions of a bounds variable are those of its
    coordinate, followed by one more. *)
Definition cf_bounds (f : list ncvar) : Prop :=
  forall v b w, In v f -> vbounds v = Some b -> In w f -> vname w = b -> exists d, vdims w = vdims v ++ [d].

(** The bounds of each time: from the previous one (zero for the first) to this one. *)
Fixpoint intervals (from : Z) (ts : list Z) : list (Z * Z) :=
  match ts with [] => [] | t :: r => (from, t) :: intervals t r end.

(** A time that differs by less than one part in 2^24. *)
Definition near (b t : Z) : Prop := (2 ^ 24 * Z.abs (b - t) <= Z.abs t)%Z.

(** ** The number of values of an array agrees with its shape. *)
Definition well_shaped {A} (m : array A) : Prop := length (aflat m) = fold_right Nat.mul 1 (ashape m).

(** ** C103: the units of the coordinates *)
(** CF conventions: a time is counted from a date, the reference date of the configuration. *)
Definition coordinate_units (refdate : text) : list (text * text) :=
  [(txt "x", txt "m"); (txt "y", txt "m"); (txt "fractions", txt "m"); (txt "lat", txt "degrees_north"); (txt "lon", txt "degrees_east");
   (txt "time", (txt "seconds since " ++ refdate)%list); (txt "time_bounds", (txt "seconds since " ++ refdate)%list)].
