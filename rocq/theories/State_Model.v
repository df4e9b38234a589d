(** Model of the model state and of the Basic Model Interface accessors, aeolis/model.py, and of
    the tables of aeolis/constants.py. Definitions only. *)
From Verif Require Import Base.

Definition mem (k : text) (l : list text) : bool := existsb (text_eqb k) l.

(** ** model.py:89-120 [ModelState] *)
Section MS.
  Context {V : Type}.

  (** A dictionary with the set [ismutable] (as a list without repetition). *)
  Record mstate := { vals : dict V; ismutable : list text }.
  Definition empty_state : mstate := {| vals := []; ismutable := [] |}.          (* 96-99 *)

  (** [set.add], [set.remove]; model.py:112-120. *)
  Definition set_mutable (k : text) (st : mstate) : mstate :=
    {| vals := vals st;
       ismutable := if mem k (ismutable st) then ismutable st else ismutable st ++ [k] |}.
  Definition set_immutable (k : text) (st : mstate) : mstate :=
    if mem k (ismutable st)
    then {| vals := vals st; ismutable := filter (fun x => negb (text_eqb k x)) (ismutable st) |}
    else st.

  (** model.py:102-109 [__setitem__] *)
  Definition setitem (k : text) (v : V) (st : mstate) : mstate :=
    if negb (dmem k (vals st)) || mem k (ismutable st)
    then set_mutable k {| vals := dset k v (vals st); ismutable := ismutable st |}
    else st.

  (** [dict.update], inherited: does not go through [__setitem__] (used at model.py:312-316). *)
  Definition bulk_update (d : dict V) (st : mstate) : mstate :=
    {| vals := fold_left (fun a kv => dset (fst kv) (snd kv) a) d (vals st);
       ismutable := ismutable st |}.

  (** [s[k] += x] and [s[k][...] = x] on a numpy array: the array object stored under [k] changes
      ([f] is the change); a missing key raises KeyError. The [__setitem__] that ends an augmented
      assignment stores the same object again or is ignored. *)
  Definition in_place (k : text) (f : V -> V) (st : mstate) : result mstate :=
    match dget k (vals st) with
    | None => Raise KeyError
    | Some v => Ok {| vals := dset k (f v) (vals st); ismutable := ismutable st |}
    end.

  Inductive op : Type :=
  | Assign (k : text) (v : V)
  | Bulk (d : dict V)
  | InPlace (k : text) (f : V -> V)
  | Mutable (k : text)
  | Immutable (k : text).

  Definition step (o : op) (st : mstate) : result mstate :=
    match o with
    | Assign k v => Ok (setitem k v st)
    | Bulk d => Ok (bulk_update d st)
    | InPlace k f => in_place k f st
    | Mutable k => Ok (set_mutable k st)
    | Immutable k => Ok (set_immutable k st)
    end.
  Fixpoint run_ops (os : list op) (st : mstate) : result mstate :=
    match os with
    | [] => Ok st
    | o :: os' => let* st' := step o st in run_ops os' st'
    end.
End MS.
Arguments mstate : clear implicits.
Arguments op : clear implicits.

(** ** The BMI object: state and parameters (model.py:147-160). [V] is the type of values stored,
    [div] the division used for two variables, [shape] the numpy shape of a value, absent for
    values that are not arrays. *)
Record model (V : Type) := { s : mstate V; p : dict V }.
Arguments s {V}. Arguments p {V}.

Section BMI.
  Context {V : Type} (div : V -> V -> V) (shape : V -> option (list nat)).

  (** model.py:420-430 *)
  Definition get_var (m : model V) (var : text) : result (option V) :=
    match dget var (vals (s m)) with
    | Some v =>
        if mem var [txt "Ct"; txt "Cu"] then
          match dget (txt "accfac") (p m) with
          | Some a => Ok (Some (div v a))
          | None => Raise KeyError
          end
        else Ok (Some v)
    | None => Ok (dget var (p m))
    end.

  (** model.py:433-440 *)
  Definition get_var_count (m : model V) : nat := length (vals (s m)).

  (** model.py:456-459; [None] stands for -1. Python's indexing counts negative indices from the end. *)
  Definition get_var_name (m : model V) (i : Z) : result (option text) :=
    let keys := sort_by (fun x => x) (dkeys (vals (s m))) in
    let n := Z.of_nat (length (vals (s m))) in
    if (n >? i)%Z then
      let j := if (i <? 0)%Z then (n + i)%Z else i in
      if (j <? 0)%Z then Raise IndexError
      else match nth_error keys (Z.to_nat j) with
           | Some k => Ok (Some k)
           | None => Raise IndexError
           end
    else Ok None.

  (** model.py:474-477 and 493-496; [None] stands for -1; a stored object without shape raises. *)
  Definition get_var_shape (m : model V) (var : text) : result (option (list nat)) :=
    match dget var (vals (s m)) with
    | Some v => match shape v with Some sh => Ok (Some sh) | None => Raise AttributeError end
    | None => Ok None
    end.
  Definition get_var_rank (m : model V) (var : text) : result (option nat) :=
    match dget var (vals (s m)) with
    | Some v => match shape v with Some sh => Ok (Some (length sh)) | None => Raise AttributeError end
    | None => Ok None
    end.

  (** model.py:554-557 *)
  Definition set_var (m : model V) (var : text) (v : V) : model V :=
    if dmem var (vals (s m)) then {| s := setitem var v (s m); p := p m |}
    else if dmem var (p m) then {| s := s m; p := dset var v (p m) |}
    else m.

  (** model.py:571-572: -1 is no variable name, so nothing is set. *)
  Definition set_var_index (m : model V) (i : Z) (v : V) : result (model V) :=
    let* name := get_var_name m i in
    match name with
    | Some k => Ok (set_var m k v)
    | None => Ok m
    end.
End BMI.

(** ** Tables of constants.py *)
Definition dims2 : list text := [txt "ny"; txt "nx"].
Definition dims3f : list text := [txt "ny"; txt "nx"; txt "nfractions"].
Definition dims3l : list text := [txt "ny"; txt "nx"; txt "nlayers"].
Definition dims4 : list text := [txt "ny"; txt "nx"; txt "nlayers"; txt "nfractions"].

(** constants.py:29-61 *)
Definition initial_state_2d : list string :=
  ["uw"; "uws"; "uwn"; "tau"; "taus"; "taun"; "tau0"; "taus0"; "taun0"; "taus_u"; "taun_u"; "dtaus";
   "dtaun"; "ustar"; "ustars"; "ustarn"; "ustar0"; "ustars0"; "ustarn0"; "udir"; "zs"; "SWL"; "Hs";
   "Hsmix"; "Tp"; "zne"]%string.
(** constants.py:63-149 *)
Definition model_state_2d : list string :=
  ["x"; "y"; "ds"; "dn"; "dsdn"; "dsdni"; "zb"; "zs"; "zne"; "zb0"; "zdry"; "dzdry"; "dzb"; "dzbyear";
   "dzbavg"; "S"; "moist"; "moist_swr"; "h_delta"; "gw"; "gw_prev"; "wetting"; "scan_w"; "scan_d";
   "scan_w_moist"; "scan_d_moist"; "w_h"; "d_h"; "w_hdelta"; "d_hdelta"; "ustar"; "ustars"; "ustarn";
   "ustar0"; "zsep"; "hsep"; "theta_stat"; "theta_dyn"; "rhoveg"; "drhoveg"; "hveg"; "dhveg"; "dzbveg";
   "germinate"; "lateral"; "vegfac"; "fence_height"; "R"; "eta"; "sigma_s"; "TWL"; "SWL"; "DSWL"; "Rti"]%string.
Definition model_state_3f : list string :=
  ["Cu"; "Cuf"; "Cu0"; "Ct"; "q"; "qs"; "qn"; "pickup"; "w"; "w_init"; "w_air"; "w_bed"; "uth"; "uthf";
   "uth0"; "u"; "us"; "un"; "u0"]%string.
Definition model_state_3l : list string := ["thlyr"; "salt"]%string.
Definition model_state_4 : list string := ["mass"]%string.

(** constants.py:339-342: the initial state is appended to the entry with the same dimensions. *)
Definition MODEL_STATE : list (list text * list string) :=
  [(dims2, model_state_2d ++ initial_state_2d); (dims3f, model_state_3f); (dims3l, model_state_3l);
   (dims4, model_state_4)].

(** model.py:2336-2338: dictionary comprehension, later entries overwrite earlier ones. *)
Definition dimensions : dict (list text) :=
  fold_left (fun d kv => dset (fst kv) (snd kv) d)
    (flat_map (fun e => map (fun v => (txt v, fst e)) (snd e)) MODEL_STATE) [].

(** model.py:2309-2314 [_dims2shape]: sizes come from the parameters, nx and ny plus one. *)
Fixpoint dims2shape (p : dict nat) (dims : list text) : result (list nat) :=
  match dims with
  | [] => Ok []
  | d :: ds =>
      match dget d p with
      | None => Raise KeyError
      | Some n => let* r := dims2shape p ds in
                  Ok ((if mem d [txt "nx"; txt "ny"] then S n else n) :: r)
      end
  end.

(** model.py:217-218, the allocation loop of [initialize]; an array is represented by its shape. *)
Fixpoint allocate (p : dict nat) (vars : dict (list text)) (st : mstate (list nat))
  : result (mstate (list nat)) :=
  match vars with
  | [] => Ok st
  | (v, dims) :: vs => let* sh := dims2shape p dims in allocate p vs (setitem v sh st)
  end.
Definition initialize_grids (p : dict nat) : result (mstate (list nat)) :=
  allocate p dimensions empty_state.

(** constants.py [DEFAULT_CONFIG], entry output_vars: the list as Python reads it (a comma is missing
    between 'mass' and 'pickup', so that the two literals are joined). *)
Definition default_output_vars : list string :=
  ["zb"; "zs"; "Ct"; "Cu"; "uw"; "udir"; "uth"; "mass" ++ "pickup"; "w"]%string.

(** constants.py:153-334: names of the parameters that have a default. *)
Definition default_config_names : list string :=
  ["process_wind"; "process_transport"; "process_bedupdate"; "process_threshold"; "th_grainsize";
   "th_bedslope"; "th_moisture"; "th_drylayer"; "th_humidity"; "th_salt"; "th_sheltering"; "th_nelayer";
   "process_avalanche"; "process_shear"; "process_tide"; "process_wave"; "process_runup"; "process_moist";
   "process_mixtoplayer"; "process_wet_bed_reset"; "process_meteo"; "process_salt"; "process_humidity";
   "process_groundwater"; "process_scanning"; "process_inertia"; "process_separation"; "process_vegetation";
   "process_fences"; "process_dune_erosion"; "process_seepage_face"; "visualization"; "xgrid_file";
   "ygrid_file"; "bed_file"; "wind_file"; "tide_file"; "wave_file"; "meteo_file"; "bedcomp_file";
   "threshold_file"; "fence_file"; "ne_file"; "veg_file"; "wave_mask"; "tide_mask"; "runup_mask";
   "threshold_mask"; "gw_mask"; "nx"; "ny"; "dt"; "dx"; "dy"; "CFL"; "accfac"; "max_bedlevel_change";
   "tstart"; "tstop"; "restart"; "dzb_interval"; "output_times"; "output_file"; "output_vars";
   "output_types"; "external_vars"; "grain_size"; "grain_dist"; "nlayers"; "layer_thickness"; "g"; "v";
   "rhoa"; "rhog"; "rhow"; "porosity"; "Aa"; "z"; "h"; "k"; "L"; "l"; "c_b"; "mu_b"; "buffer_width";
   "sep_filter_iterations"; "zsep_y_filter"; "Cb"; "Ck"; "Cl"; "Cdk"; "kappa"; "sigma"; "beta"; "bi"; "T";
   "Tdry"; "Tsalt"; "Tbedreset"; "eps"; "gamma"; "xi"; "facDOD"; "csalt"; "cpair"; "fc"; "w1_5";
   "resw_moist"; "satw_moist"; "resd_moist"; "satd_moist"; "nw_moist"; "nd_moist"; "mw_moist"; "md_moist";
   "alfaw_moist"; "alfad_moist"; "thick_moist"; "K_gw"; "ne_gw"; "D_gw"; "tfac_gw"; "Cl_gw"; "in_gw";
   "GW_stat"; "theta_dyn"; "theta_stat"; "avg_time"; "gamma_vegshear"; "hveg_max"; "dzb_opt"; "V_ver";
   "V_lat"; "germinate"; "lateral"; "veg_gamma"; "veg_sigma"; "sedimentinput"; "scheme"; "solver";
   "boundary_lateral"; "boundary_offshore"; "boundary_onshore"; "boundary_gw"; "method_moist_threshold";
   "method_moist_process"; "offshore_flux"; "constant_offshore_flux"; "onshore_flux";
   "constant_onshore_flux"; "lateral_flux"; "method_transport"; "method_roughness"; "method_grainspeed";
   "max_error"; "max_iter"; "max_iter_ava"; "refdate"; "callback"; "wind_convention"; "alfa";
   "dune_toe_elevation"; "beach_slope"; "veg_min_elevation"; "vegshear_type"; "okin_c1_veg";
   "okin_c1_fence"; "okin_initialred_veg"; "okin_initialred_fence"; "veggrowth_type"; "rhoveg_max";
   "t_veg"; "v_gam"]%string.

(** ** Pickling a [ModelState] (used by the restart files, model.py:2869-2880 and 2836-2866).
    Python rebuilds an instance of a dictionary subclass without calling [__init__], stores the
    items through [__setitem__], and only then restores the instance attributes; [ismutable] is such
    an attribute, so during the stores it does not exist. *)
Record half_built (V : Type) := { hb_vals : dict V; hb_mutable : option (list text) }.
Arguments hb_vals {V}. Arguments hb_mutable {V}.
Section Pickle.
  Context {V : Type}.
  (** model.py:102-109 on a half-built instance: line 107 evaluates [k not in self.keys()] first,
      then line 109 needs the attribute. *)
  Definition hb_setitem (kv : text * V) (h : half_built V) : result (half_built V) :=
    let (k, v) := kv in
    match hb_mutable h with
    | None => Raise AttributeError
    | Some l => Ok (if negb (dmem k (hb_vals h)) || mem k l
                    then {| hb_vals := dset k v (hb_vals h);
                            hb_mutable := Some (if mem k l then l else l ++ [k]) |}
                    else h)
    end.
  Fixpoint hb_setitems (d : dict V) (h : half_built V) : result (half_built V) :=
    match d with
    | [] => Ok h
    | kv :: d' => let* h' := hb_setitem kv h in hb_setitems d' h'
    end.
  (** Items first, attributes last. *)
  Definition unpickle (stored : mstate V) : result (mstate V) :=
    let* h := hb_setitems (vals stored) {| hb_vals := []; hb_mutable := None |} in
    Ok {| vals := hb_vals h; ismutable := ismutable stored |}.
End Pickle.

(** A file opened in text mode rejects pickled bytes: model.py:2873 opens with mode 'w',
    model.py:2853 with mode 'r'. *)
Inductive file_mode := Text | Binary.
Definition pickle_to_file {A} (mode : file_mode) (a : A) : result A :=
  match mode with Text => Raise TypeError | Binary => Ok a end.
