(** Properties C101-C105: the output file. *)
From Verif Require Import Base State_Model State_Spec State_Cases Netcdf_Text Netcdf_Model Netcdf_Spec Netcdf_Proofs Netcdf_Cases.

(** Every grid asked for is in the file under its name, with dimensions that are those of its array, one array for each time. *)
Theorem C101_shape : forall lines refdate p ny nx nl nf known outvars D f v0 ext ds st, sizes p ny nx nl nf ->
  initialize lines refdate p known dimensions outvars = Ok (D, f) -> asked outvars v0 ext -> In v0 known ->
  declared ds v0 -> initialize_grids p = Ok st ->
  exists v sh, In v f /\ named v0 ext (vname v) /\ dget v0 (vals st) = Some sh /\
    forall nt, holds_shape D nt v sh.
Proof. exact c101_shape. Qed.
Print Assumptions C101_shape.
Example C101_shape_case : sizes sizes_ex 2 4 3 5 /\
  is_ok (initialize lines_ex (txt "2020-01-01") sizes_ex known_ex dimensions out_ex) /\
  asked out_ex (txt "zb") (Some (txt "avg")) /\ In (txt "zb") known_ex /\ declared dims2 (txt "zb") /\
  file_dims dims2 = [txt "time"; txt "n"; txt "s"] /\ is_ok (initialize_grids sizes_ex).
Proof. exact c101_case. Qed.

(** The file holds nothing but its coordinates and what was asked for. *)
Theorem C101_nothing_else : forall lines refdate p known dims outvars D f v,
  initialize lines refdate p known dims outvars = Ok (D, f) -> In v f ->
  In (vname v) reserved \/
  exists v0 ext, asked outvars v0 ext /\ In v0 known /\ In v0 (dkeys dims) /\ named v0 ext (vname v).
Proof. exact c101_nothing_else. Qed.
Print Assumptions C101_nothing_else.
Example C101_nothing_else_case : asked_names known_ex dimensions out_ex = [txt "zb"; txt "zb_avg"; txt "mass_var"].
Proof. exact c101_other_case. Qed.

(** A time slice written to text is read back as it was, for every shape. *)
Theorem C102_back : forall A (file : dict (list (array A))) var slices i m a n r ix,
    dget var file = Some slices -> nth_error slices i = Some m -> well_shaped m ->
    ashape m = a :: n :: r -> 0 < n -> ix = Z.of_nat i \/ ix = (Z.of_nat i - Z.of_nat (length slices))%Z ->
    exists rs, dump file var ix = Ok rs /\ Forall (fun row => length row = n) rs /\
      length rs = a * fold_right Nat.mul 1 r /\ load_as (ashape m) rs = Ok m.
Proof. exact c102_back. Qed.
Print Assumptions C102_back.
Example C102_back_case : well_shaped bed2 /\
  dump bed_file (txt "mass") (-1) = Ok [[21; 22]; [23; 24]; [25; 26]; [27; 28]; [29; 30]; [31; 32]] /\
  load_as [1; 2; 2; 3] [[21; 22]; [23; 24]; [25; 26]; [27; 28]; [29; 30]; [31; 32]] = Ok bed2 /\
  load_as [1; 2; 3; 3] [[21; 22]; [23; 24]; [25; 26]; [27; 28]; [29; 30]; [31; 32]] = Raise ValueError.
Proof. exact c102_case. Qed.

(** For another number of values reading raises ValueError. *)
Theorem C102_size : forall A (file : dict (list (array A))) var ix rs m sh,
    (exists slices, dget var file = Some slices /\ slice slices ix = Ok m) -> dump file var ix = Ok rs -> well_shaped m ->
    fold_right Nat.mul 1 sh <> fold_right Nat.mul 1 (ashape m) -> load_as sh rs = Raise ValueError.
Proof. exact c102_size. Qed.
Print Assumptions C102_size.
Example C102_size_case : well_shaped bed2 /\
  dump bed_file (txt "mass") (-1) = Ok [[21; 22]; [23; 24]; [25; 26]; [27; 28]; [29; 30]; [31; 32]] /\
  load_as [1; 2; 2; 3] [[21; 22]; [23; 24]; [25; 26]; [27; 28]; [29; 30]; [31; 32]] = Ok bed2 /\
  load_as [1; 2; 3; 3] [[21; 22]; [23; 24]; [25; 26]; [27; 28]; [29; 30]; [31; 32]] = Raise ValueError.
Proof. exact c102_case. Qed.

(** A variable that is documented in the plain form has its unit in the file. Missing part: variances (C103_variance_refuted) and lines with other text before the unit (C103_lost_refuted). *)
Theorem C103_units_partial : forall lines refdate p known dims outvars D f v0 ext ds u,
  initialize lines refdate p known dims outvars = Ok (D, f) -> asked outvars v0 ext -> In v0 known ->
  dget v0 dims = Some ds -> ext <> Some (txt "var") -> u <> [] ->
  (exists line, In line lines /\ documents_cleanly line v0 u) ->
  (forall line u', In line lines -> documents_plainly line v0 u' -> u' = u) ->
  exists v, In v f /\ named v0 ext (vname v) /\ vunits v = Some (statistic_unit ext (cf_unit u)).
Proof. exact c103_units. Qed.
Print Assumptions C103_units_partial.
Example C103_units_partial_case : documents_cleanly (txt "        'zb',    # [m] Bed level") (txt "zb") (txt "m") /\
  parse_metadata lines_ex [txt "zb"; txt "mass"; txt "Ct"] =
    [(txt "zb", Some (txt "m")); (txt "mass", Some (txt "1")); (txt "Ct", None)].
Proof. exact c103_case. Qed.

(** A variable documented nowhere in that form has none. *)
Theorem C103_unknown : forall lines vars v, In v vars ->
  (forall line u, In line lines -> ~ documents_plainly line v u) ->
  dget v (parse_metadata lines vars) = Some None.
Proof. exact c103_unknown. Qed.
Print Assumptions C103_unknown.
Example C103_unknown_case : documents_cleanly (txt "        'zb',    # [m] Bed level") (txt "zb") (txt "m") /\
  parse_metadata lines_ex [txt "zb"; txt "mass"; txt "Ct"] =
    [(txt "zb", Some (txt "m")); (txt "mass", Some (txt "1")); (txt "Ct", None)].
Proof. exact c103_case. Qed.

(** The table of constants.py: all variables but twenty have their documented unit. *)
Theorem C103_table : forall vars ds v, declared ds v -> In v vars ->
  (In v without_unit /\ dget v (parse_metadata constants_py vars) = Some None) \/
  (~ In v without_unit /\ exists line u, In line constants_py /\ documents_plainly line v u /\
     dget v (parse_metadata constants_py vars) = Some (Some (cf_unit u))).
Proof. exact c103_table. Qed.
Print Assumptions C103_table.
Example C103_table_case : declared dims4 (txt "mass") /\ ~ In (txt "mass") without_unit /\ declared dims2 (txt "zb").
Proof. exact c103_table_case. Qed.

(** The unit of the groundwater level is documented and not found. *)
Theorem C103_lost_refuted : exists v u line, In line constants_py /\ documents line v u /\
  forall vars, In v vars -> dget v (parse_metadata constants_py vars) = Some None.
Proof. exact c103_lost. Qed.
Print Assumptions C103_lost_refuted.

(** A variance has the unit of the variable. *)
Theorem C103_variance_refuted : exists lines refdate p known outvars D f v u, sizes p 2 4 3 5 /\
  initialize lines refdate p known dimensions outvars = Ok (D, f) /\ asked outvars (txt "zb") (Some (txt "var")) /\
  dget (txt "zb") (parse_metadata lines (dkeys outvars)) = Some (Some u) /\
  In v f /\ named (txt "zb") (Some (txt "var")) (vname v) /\ vunits v = Some u /\
  u <> statistic_unit (Some (txt "var")) u.
Proof. exact c103_variance. Qed.
Print Assumptions C103_variance_refuted.

(** Files are created for all requests without clashes of names. *)
Theorem C104_runs : forall lines refdate p ny nx nl nf known outvars, sizes p ny nx nl nf ->
  NoDup (asked_names known dimensions outvars) ->
  (forall n, In n (asked_names known dimensions outvars) -> ~ In n reserved) ->
  is_ok (initialize lines refdate p known dimensions outvars).
Proof. exact c104_runs. Qed.
Print Assumptions C104_runs.
Example C104_runs_case : sizes sizes_ex 2 4 3 5 /\ NoDup (asked_names known_ex dimensions out_ex) /\
  (forall n, In n (asked_names known_ex dimensions out_ex) -> ~ In n reserved).
Proof. exact c104_case. Qed.

(** Every grid but x and y can be asked for. *)
Theorem C104_each : forall lines refdate p ny nx nl nf known ds v, sizes p ny nx nl nf -> declared ds v ->
  v <> txt "x" -> v <> txt "y" -> is_ok (initialize lines refdate p known dimensions [(v, [None])]).
Proof. exact c104_each. Qed.
Print Assumptions C104_each.
Example C104_each_case : sizes sizes_ex 2 4 3 5 /\ declared dims4 (txt "mass") /\ txt "mass" <> txt "x" /\ txt "mass" <> txt "y".
Proof. exact c104_each_case. Qed.

(** A request that clashes with a coordinate raises RuntimeError. *)
Theorem C104_clash_raises : forall lines refdate p ny nx nl nf known outvars n, sizes p ny nx nl nf ->
  In n (asked_names known dimensions outvars) -> In n reserved ->
  initialize lines refdate p known dimensions outvars = Raise RuntimeError.
Proof. exact c104_clash. Qed.
Print Assumptions C104_clash_raises.
Example C104_clash_raises_case : exists p known outvars v ds, sizes p 2 4 3 5 /\ declared ds v /\ In v known /\ outvars = [(v, [None])] /\
  forall lines refdate, initialize lines refdate p known dimensions outvars = Raise RuntimeError.
Proof. exact c104_coordinate. Qed.

(** The coordinates cannot be asked for. *)
Theorem C104_coordinate_refuted : exists p known outvars v ds, sizes p 2 4 3 5 /\ declared ds v /\ In v known /\ outvars = [(v, [None])] /\
  forall lines refdate, initialize lines refdate p known dimensions outvars = Raise RuntimeError.
Proof. exact c104_coordinate. Qed.
Print Assumptions C104_coordinate_refuted.

(** Up to 2^24 seconds the time bounds are the intervals between the times. Missing part: later times (C105_outside_refuted). *)
Theorem C105_intervals_partial : forall ts, Forall (fun t => (Z.abs t <= 2 ^ 24)%Z) ts ->
  times (run_axis ts) = ts /\ time_bounds (run_axis ts) = intervals 0 ts.
Proof. exact c105_intervals. Qed.
Print Assumptions C105_intervals_partial.
Example C105_intervals_partial_case : Forall (fun t => (Z.abs t <= 2 ^ 24)%Z) [3600; 7200; 10800]%Z /\
  time_bounds (run_axis [3600; 7200; 10800]%Z) = [(0, 3600); (3600, 7200); (7200, 10800)]%Z.
Proof. exact c105_case. Qed.

(** In general they differ by less than one part in 2^24. *)
Theorem C105_near : forall ts, times (run_axis ts) = ts /\
  Forall2 (fun b i => near (fst b) (fst i) /\ near (snd b) (snd i)) (time_bounds (run_axis ts)) (intervals 0 ts).
Proof. exact c105_near. Qed.
Print Assumptions C105_near.
Example C105_near_case : run_axis [268448400; 268452000]%Z =
  {| times := [268448400; 268452000]%Z; time_bounds := [(0, 268448384); (268448384, 268452000)]%Z |}.
Proof. exact c105_near_case. Qed.

(** Later on the end of an interval can lie before its time. *)
Theorem C105_outside_refuted : exists ts b, Forall (fun t => (t mod 3600 = 0)%Z) ts /\
  time_bounds (run_axis ts) = [b] /\ times (run_axis ts) = ts /\ Forall (fun t => (snd b < t)%Z) ts /\
  time_bounds (run_axis ts) <> intervals 0 ts.
Proof. exact c105_outside. Qed.
Print Assumptions C105_outside_refuted.

(** The bounds of the coordinates have their dimensions transposed, in every file. *)
Theorem C105_transposed : forall lines refdate p known dims outvars D f,
  initialize lines refdate p known dims outvars = Ok (D, f) -> ~ cf_bounds f.
Proof. exact c105_transposed. Qed.
Print Assumptions C105_transposed.
Example C105_transposed_case : exists lines refdate p known dims outvars D f,
  initialize lines refdate p known dims outvars = Ok (D, f) /\ ~ cf_bounds f.
Proof. exact c105_transposed_ex. Qed.

(** So no file follows the conventions. *)
Theorem C105_transposed_refuted : exists lines refdate p known dims outvars D f,
  initialize lines refdate p known dims outvars = Ok (D, f) /\ ~ cf_bounds f.
Proof. exact c105_transposed_ex. Qed.
Print Assumptions C105_transposed_refuted.

(** C103 for the coordinates: each is in the file once, under its unit; the time counts from the reference date of the configuration. *)
Theorem C103_coordinates : forall lines refdate p known dims outvars D f n u,
  initialize lines refdate p known dims outvars = Ok (D, f) -> In (n, u) (coordinate_units refdate) ->
  exists v, In v f /\ vname v = n /\ vunits v = Some u /\ forall v', In v' f -> vname v' = n -> v' = v.
Proof. exact c103_coordinates. Qed.
Print Assumptions C103_coordinates.
Example C103_coordinates_case : exists D f, initialize lines_ex (txt "2020-01-01") sizes_ex known_ex dimensions out_ex = Ok (D, f) /\
  In (txt "time", txt "seconds since 2020-01-01") (coordinate_units (txt "2020-01-01")).
Proof. exact c103_coordinates_case. Qed.
