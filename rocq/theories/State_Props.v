(** Property theorems about the model state, the Basic Model Interface and the tables of variables:
    C06, C07, C08, C09, C17, C50, C53, C54. *)
From Coq Require Import Sorting.Sorted.
From Verif Require Import Base State_Model State_Spec State_Proofs State_Cases.

(** C06. An immutable variable is overwritten by a bulk update (the way the solvers store their
    result) and by in-place array operations; a variable first stored by a bulk update can then
    never be assigned. *)
Theorem C06_bulk_update_refuted : exists (os : list (op Z)) st,
  run_ops (prep ++ os) empty_state = Ok st /\ (forall o, In o os -> o = Bulk [(zb, 2%Z)]) /\ dget zb (vals st) = Some 2%Z.
Proof. exact immutable_overwritten_bulk. Qed.
Print Assumptions C06_bulk_update_refuted.
Theorem C06_in_place_refuted : exists (f : Z -> Z) st,
  run_ops (prep ++ [InPlace zb f]) empty_state = Ok st /\ dget zb (vals st) = Some 2%Z.
Proof. exact immutable_overwritten_in_place. Qed.
Print Assumptions C06_in_place_refuted.
Theorem C06_bulk_new_variable_refuted : exists (k : text) st,
  run_ops [Bulk [(k, 1%Z)]; Assign k 2%Z] (@empty_state Z) = Ok st /\ dget k (vals st) = Some 1%Z.
Proof. exact bulk_new_key_stuck. Qed.
Print Assumptions C06_bulk_new_variable_refuted.
(** With item assignment only, every variable behaves as its own automaton, whatever the history. *)
Theorem C06_assignments_partial : forall V (os : list (op V)), Forall plain_op os ->
  exists st, run_ops os empty_state = Ok st /\ forall k, dget k (vals st) = fst (expected k os).
Proof. exact @state_refines. Qed.
Print Assumptions C06_assignments_partial.
Example C06_assignments_partial_ex :
  let os := prep ++ [Assign zb 2; Assign uw 6; Mutable zb; Assign zb 3; Immutable uw; Assign uw 7]%Z in
  Forall plain_op os /\ fst (expected zb os) = Some 3%Z /\ fst (expected uw os) = Some 6%Z.
Proof. exact ex_plain. Qed.
(** With any operations, an immutable variable keeps its value as long as none of the bulk and
    in-place changes names it and it is not released. *)
Theorem C06_fixed_partial : forall V k v (os : list (op V)), Forall (leaves k) os ->
  forall st st', dget k (vals st) = Some v -> ~ In k (ismutable st) ->
  run_ops os st = Ok st' -> dget k (vals st') = Some v.
Proof. exact @fixed_stays. Qed.
Print Assumptions C06_fixed_partial.
Example C06_fixed_partial_ex : exists st, run_ops prep empty_state = Ok st /\ dget zb (vals st) = Some 1%Z /\ ~ In zb (ismutable st)
  /\ Forall (leaves zb) [Assign zb 2; InPlace uw (Z.add 1); Bulk [(uw, 9)]; Immutable uw; Mutable uw]%Z.
Proof. exact ex_fixed. Qed.

(** C07. Setting then getting. *)
Theorem C07_concentration_refuted : exists (m : model Z) v,
  known m (txt "Ct") /\ writable m (txt "Ct") /\ get_var Z.div (set_var m (txt "Ct") v) (txt "Ct") <> Ok (Some v).
Proof. exact ct_round_trip_fails. Qed.
Print Assumptions C07_concentration_refuted.
Theorem C07_set_get_partial : forall V (div : V -> V -> V) (m : model V) k v,
  known m k -> writable m k -> k <> txt "Ct" -> k <> txt "Cu" ->
  get_var div (set_var m k v) k = Ok (Some v).
Proof. exact @set_get. Qed.
Print Assumptions C07_set_get_partial.
Example C07_set_get_partial_ex : known m0 uw /\ writable m0 uw /\ uw <> txt "Ct" /\ uw <> txt "Cu".
Proof. exact ex_known. Qed.
Theorem C07_concentration_divided : forall V (div : V -> V -> V) (m : model V) k v a,
  In k (dkeys (vals (s m))) -> writable m k -> (k = txt "Ct" \/ k = txt "Cu") ->
  dget (txt "accfac") (p m) = Some a -> get_var div (set_var m k v) k = Ok (Some (div v a)).
Proof. exact @ct_divided. Qed.
Print Assumptions C07_concentration_divided.
Example C07_concentration_divided_ex : get_var Z.div (set_var m0 (txt "Ct") 10%Z) (txt "Ct") = Ok (Some 5%Z).
Proof. exact ex_ct. Qed.
Theorem C07_others_unchanged : forall V (div : V -> V -> V) (m : model V) k v k',
  k' <> k -> (k = txt "accfac" -> k' <> txt "Ct" /\ k' <> txt "Cu") ->
  get_var div (set_var m k v) k' = get_var div m k'.
Proof. exact @set_get_other. Qed.
Print Assumptions C07_others_unchanged.
Example C07_others_unchanged_ex : uw <> zb /\ (zb = txt "accfac" -> uw <> txt "Ct" /\ uw <> txt "Cu").
Proof. exact ex_others. Qed.
Theorem C07_last_set_wins : forall V (div : V -> V -> V) (sets : list (text * V)) (m : model V) k,
  known m k -> writable m k -> k <> txt "Ct" -> k <> txt "Cu" ->
  get_var div (fold_left (fun m kv => set_var m (fst kv) (snd kv)) sets m) k
  = last_value k sets (get_var div m k).
Proof. exact @sets_get_last. Qed.
Print Assumptions C07_last_set_wins.
Example C07_last_set_wins_ex :
  last_value uw [(uw, 6); (zb, 3); (uw, 7); (txt "dt", 1)]%Z (get_var Z.div m0 uw) = Ok (Some 7%Z).
Proof. exact ex_sets. Qed.
Theorem C07_unknown_ignored : forall V (m : model V) k v, ~ known m k -> set_var m k v = m.
Proof. exact @set_unknown. Qed.
Print Assumptions C07_unknown_ignored.
Theorem C07_unknown_none : forall V (div : V -> V -> V) (m : model V) k, ~ known m k -> get_var div m k = Ok None.
Proof. exact @get_unknown. Qed.
Print Assumptions C07_unknown_none.
Example C07_unknown_ex : ~ known m0 (txt "nope").
Proof. exact ex_unknown. Qed.
Theorem C07_immutable_ignored : forall V (m : model V) k v,
  In k (dkeys (vals (s m))) -> ~ In k (ismutable (s m)) -> set_var m k v = m.
Proof. exact @immutable_set_ignored. Qed.
Print Assumptions C07_immutable_ignored.
Example C07_immutable_ignored_ex : In zb (dkeys (vals (s m0))) /\ ~ In zb (ismutable (s m0)).
Proof. exact ex_immutable_known. Qed.

(** C08. Enumeration of the grids by index. *)
Theorem C08_enumeration : forall V (m : model V), NoDup (dkeys (vals (s m))) ->
  exists names, names_upto m (get_var_count m) = map (fun k => Ok (Some k)) names /\
    StronglySorted text_lt names /\ (forall k, In k names <-> In k (dkeys (vals (s m)))).
Proof. exact @enumeration. Qed.
Print Assumptions C08_enumeration.
Example C08_enumeration_ex : NoDup (dkeys (vals (s m0))) /\
  names_upto m0 (get_var_count m0) = map (fun k => Ok (Some k)) [txt "Ct"; uw; zb].
Proof. exact ex_enum. Qed.
Theorem C08_beyond : forall V (m : model V) i, (Z.of_nat (get_var_count m) <= i)%Z -> get_var_name m i = Ok None.
Proof. exact @name_beyond. Qed.
Print Assumptions C08_beyond.
Example C08_beyond_ex : get_var_name m0 3%Z = Ok None.
Proof. exact ex_beyond. Qed.
Theorem C08_negative : forall V (m : model V) i, (i < 0)%Z ->
  get_var_name m i = if (i <? - Z.of_nat (get_var_count m))%Z then Raise IndexError
                     else get_var_name m (Z.of_nat (get_var_count m) + i).
Proof. exact @name_negative. Qed.
Print Assumptions C08_negative.
Example C08_negative_ex : get_var_name m0 (-1) = Ok (Some zb) /\ get_var_name m0 (-4) = Raise IndexError.
Proof. exact ex_negative. Qed.
Theorem C08_set_by_index : forall V (m : model V) i v, (0 <= i)%Z ->
  exists m', set_var_index m i v = Ok m' /\
    ((i < Z.of_nat (get_var_count m))%Z -> exists k, get_var_name m i = Ok (Some k) /\ m' = set_var m k v) /\
    ((Z.of_nat (get_var_count m) <= i)%Z -> m' = m).
Proof. exact @set_index. Qed.
Print Assumptions C08_set_by_index.
Example C08_set_by_index_ex : set_var_index m0 1 7%Z = Ok (set_var m0 uw 7%Z) /\ set_var_index m0 3 7%Z = Ok m0.
Proof. exact ex_set_index. Qed.

(** C09. After initialisation every declared grid has its documented shape, for every grid size. *)
Theorem C09_shapes : forall p ny nx nl nf, sizes p ny nx nl nf ->
  exists st, initialize_grids p = Ok st /\
    forall dims v, declared dims v ->
      exists sh, dget v (vals st) = Some sh /\ documented_shape dims ny nx nl nf sh.
Proof. exact grid_shapes. Qed.
Print Assumptions C09_shapes.
Example C09_shapes_ex : sizes sizes_ex 2 4 3 5 /\ declared dims2 (txt "zb") /\ declared dims3f (txt "pickup")
  /\ declared dims3l (txt "thlyr") /\ declared dims4 (txt "mass").
Proof. exact (conj ex_sizes ex_declared). Qed.
(** The same by name. *)
Theorem C09_named : forall p ny nx nl nf, sizes p ny nx nl nf ->
  exists st, initialize_grids p = Ok st /\
    dget (txt "zb") (vals st) = Some [ny + 1; nx + 1] /\ dget (txt "pickup") (vals st) = Some [ny + 1; nx + 1; nf] /\
    dget (txt "thlyr") (vals st) = Some [ny + 1; nx + 1; nl] /\ dget (txt "mass") (vals st) = Some [ny + 1; nx + 1; nl; nf].
Proof. exact named_shapes. Qed.
Print Assumptions C09_named.
Example C09_named_case : sizes sizes_ex 2 4 3 5.
Proof. exact ex_sizes. Qed.
Theorem C09_rank_is_length_of_shape : forall V (shape : V -> option (list nat)) (m : model V) var,
  match get_var_shape shape m var with
  | Ok (Some sh) => get_var_rank shape m var = Ok (Some (length sh))
  | Ok None => get_var_rank shape m var = Ok None /\ ~ In var (dkeys (vals (s m)))
  | Raise e => get_var_rank shape m var = Raise e
  end.
Proof. exact @rank_shape. Qed.
Print Assumptions C09_rank_is_length_of_shape.
Example C09_rank_is_length_of_shape_ex :
  get_var_shape value_shape m_arr (txt "mass") = Ok (Some [3; 5; 2; 4]) /\
  get_var_rank value_shape m_arr (txt "mass") = Ok (Some 4).
Proof. exact ex_rank. Qed.

(** C17. A restart file cannot be written (text mode), and a pickled non-empty state cannot be
    loaded at all. *)
Theorem C17_dump_refuted : exists (st : mstate Z) e, pickle_to_file Text st = Raise e.
Proof. exact restart_text_mode. Qed.
Print Assumptions C17_dump_refuted.
Theorem C17_load_refuted : forall V (st : mstate V), vals st <> [] -> unpickle st = Raise AttributeError.
Proof. exact @unpickle_fails. Qed.
Print Assumptions C17_load_refuted.
Example C17_load_refuted_ex : vals (s m0) <> [].
Proof. exact ex_unpickle. Qed.

(** Only a state without variables can be loaded, and that as it was. *)
Theorem C17_load_nothing : forall V (st st' : mstate V), unpickle st = Ok st' <-> vals st = [] /\ st' = st.
Proof. exact @unpickle_nothing. Qed.
Print Assumptions C17_load_nothing.
Example C17_load_nothing_ex : unpickle {| vals := ([] : dict Z); ismutable := [txt "zb"] |} = Ok {| vals := []; ismutable := [txt "zb"] |}.
Proof. exact ex_unpickle_nothing. Qed.

(** C50. The default list of output variables names one that does not exist. *)
Theorem C50_default_outputs_refuted : exists n, In n (map txt default_output_vars) /\ ~ exists_var n.
Proof. exact default_output_missing. Qed.
Print Assumptions C50_default_outputs_refuted.
Theorem C50_other_outputs_partial : forall n, In n (map txt default_output_vars) -> n <> txt "masspickup" -> exists_var n.
Proof. exact default_output_others. Qed.
Print Assumptions C50_other_outputs_partial.
Example C50_other_outputs_partial_ex : In (txt "zb") (map txt default_output_vars) /\ txt "zb" <> txt "masspickup".
Proof. exact ex_other_outputs. Qed.

Theorem C50_one_shape : forall dims dims' v, declared dims v -> declared dims' v -> dims = dims'.
Proof. exact declared_once. Qed.
Print Assumptions C50_one_shape.
Example C50_one_shape_ex : declared dims2 (txt "zb") /\ declared dims3f (txt "pickup") /\ declared dims3l (txt "thlyr")
  /\ declared dims4 (txt "mass").
Proof. exact ex_declared. Qed.

(** C53. Rank and shape of every enumerated variable. *)
Theorem C53_objects_refuted : exists (m : model value) i k,
  (0 <= i < Z.of_nat (get_var_count m))%Z /\ get_var_name m i = Ok (Some k) /\
  get_var_shape value_shape m k = Raise AttributeError /\ get_var_rank value_shape m k = Raise AttributeError.
Proof. exact object_without_shape. Qed.
Print Assumptions C53_objects_refuted.
Theorem C53_arrays_partial : forall V (shape : V -> option (list nat)) (m : model V) var,
  (forall k v, dget k (vals (s m)) = Some v -> shape v <> None) ->
  In var (dkeys (vals (s m))) -> exists sh, get_var_shape shape m var = Ok (Some sh) /\
    get_var_rank shape m var = Ok (Some (length sh)).
Proof. exact @shape_available. Qed.
Print Assumptions C53_arrays_partial.
Example C53_arrays_partial_ex : (forall k v, dget k (vals (s m_arr)) = Some v -> value_shape v <> None)
  /\ In (txt "mass") (dkeys (vals (s m_arr))).
Proof. exact ex_shapes. Qed.

(** C54. Parameters that share their name with a grid cannot be set or read. *)
Theorem C54_shadowed_parameters_refuted : exists (m : model Z) k v,
  In k (map txt default_config_names) /\ exists_var k /\ In k (dkeys (p m)) /\ In k (ismutable (s m)) /\
  dget k (p (set_var m k v)) <> Some v /\ get_var Z.div m k <> Ok (dget k (p m)).
Proof. exact shadowed_unreachable. Qed.
Print Assumptions C54_shadowed_parameters_refuted.
Theorem C54_which_parameters : forall n, In n (map txt default_config_names) -> (exists_var n <-> In n shadowed).
Proof. exact shadowed_names. Qed.
Print Assumptions C54_which_parameters.
Theorem C54_other_parameters_partial : forall V (m : model V) k v, ~ In k (dkeys (vals (s m))) -> In k (dkeys (p m)) ->
  dget k (p (set_var m k v)) = Some v /\ s (set_var m k v) = s m.
Proof. exact @set_param. Qed.
Print Assumptions C54_other_parameters_partial.
Example C54_other_parameters_partial_ex : ~ In (txt "dt") (dkeys (vals (s m_shadow))) /\ In (txt "dt") (dkeys (p m_shadow)).
Proof. exact ex_set_param. Qed.
