(** Concrete cases and counterexamples for the state and BMI properties. *)
From Coq Require Import Sorting.Sorted.
From Verif Require Import Base State_Model State_Spec State_Proofs.

Local Open Scope Z_scope.
Definition zb := txt "zb".
Definition uw := txt "uw".

(** A bed level fixed by the user. *)
Definition prep : list (op Z) := [Assign zb 1; Assign uw 5; Immutable zb].

Lemma ex_plain : Forall plain_op (prep ++ [Assign zb 2; Assign uw 6; Mutable zb; Assign zb 3; Immutable uw; Assign uw 7])
  /\ fst (expected zb (prep ++ [Assign zb 2; Assign uw 6; Mutable zb; Assign zb 3; Immutable uw; Assign uw 7])) = Some 3
  /\ fst (expected uw (prep ++ [Assign zb 2; Assign uw 6; Mutable zb; Assign zb 3; Immutable uw; Assign uw 7])) = Some 6.
Proof. split; [repeat constructor|]. split; vm_compute; reflexivity. Qed.

Lemma ex_fixed : exists st, run_ops prep empty_state = Ok st /\ dget zb (vals st) = Some 1 /\ ~ In zb (ismutable st)
  /\ Forall (leaves zb) [Assign zb 2; InPlace uw (Z.add 1); Bulk [(uw, 9)]; Immutable uw; Mutable uw].
Proof.
  eexists. split; [vm_compute; reflexivity|]. split; [vm_compute; reflexivity|]. split.
  - cbn. unfold zb, uw. intros [H|[]]. discriminate H.
  - repeat constructor; cbn [leaves dkeys map fst]; unfold zb, uw; try (intros [H|[]]; discriminate H); intros H; discriminate H.
Qed.

Lemma immutable_overwritten_bulk : exists (os : list (op Z)) st,
  run_ops (prep ++ os) empty_state = Ok st /\ (forall o, In o os -> o = Bulk [(zb, 2)]) /\ dget zb (vals st) = Some 2.
Proof.
  exists [Bulk [(zb, 2)]]. eexists. split; [vm_compute; reflexivity|]. split; [|vm_compute; reflexivity].
  intros o [H|[]]. now symmetry.
Qed.
Lemma immutable_overwritten_in_place : exists (f : Z -> Z) st,
  run_ops (prep ++ [InPlace zb f]) empty_state = Ok st /\ dget zb (vals st) = Some 2.
Proof. exists (Z.add 1). eexists. split; vm_compute; reflexivity. Qed.
Lemma bulk_new_key_stuck : exists (k : text) st,
  run_ops [Bulk [(k, 1)]; Assign k 2] (@empty_state Z) = Ok st /\ dget k (vals st) = Some 1.
Proof. exists zb. eexists. split; vm_compute; reflexivity. Qed.

(** A model with two grids, one concentration and two parameters. *)
Definition m0 : model Z :=
  {| s := {| vals := [(uw, 5); (zb, 1); (txt "Ct", 8)]; ismutable := [uw; txt "Ct"] |};
     p := [(txt "accfac", 2); (txt "dt", 60)] |}.

Lemma ex_known : known m0 uw /\ writable m0 uw /\ uw <> txt "Ct" /\ uw <> txt "Cu".
Proof.
  unfold known, writable. cbn. repeat split; try discriminate; try (left; now left). tauto.
Qed.
Lemma ex_known_param : known m0 (txt "dt") /\ writable m0 (txt "dt").
Proof.
  split; [right; cbn; tauto|]. unfold writable. cbn. intros [H|[H|[H|[]]]]; discriminate H.
Qed.
Lemma ex_unknown : ~ known m0 (txt "nope").
Proof. unfold known. cbn. intros [[H|[H|[H|[]]]]|[H|[H|[]]]]; discriminate H. Qed.
Lemma ex_sets : last_value uw [(uw, 6); (zb, 3); (uw, 7); (txt "dt", 1)] (get_var Z.div m0 uw) = Ok (Some 7).
Proof. vm_compute. reflexivity. Qed.
Lemma ct_round_trip_fails : exists (m : model Z) v,
  known m (txt "Ct") /\ writable m (txt "Ct") /\ get_var Z.div (set_var m (txt "Ct") v) (txt "Ct") <> Ok (Some v).
Proof.
  exists m0, 8. split; [left; cbn; tauto|]. split; [intros _; cbn; tauto|]. vm_compute. discriminate.
Qed.
Lemma ct_divided {V} (div : V -> V -> V) (m : model V) k v a :
  In k (dkeys (vals (s m))) -> writable m k -> (k = txt "Ct" \/ k = txt "Cu") ->
  dget (txt "accfac") (p m) = Some a -> get_var div (set_var m k v) k = Ok (Some (div v a)).
Proof.
  intros Hk Hw Hc Ha. unfold set_var. destruct (dmem_keys k (vals (s m))) as [_|Hn]; [|tauto].
  unfold get_var. cbn [s p].
  assert (E : dget k (vals (setitem k v (s m))) = Some v).
  { apply setitem_writable. destruct (mem_spec k (ismutable (s m))) as [_|Hn]; [apply orb_true_r|].
    exfalso. apply Hn. now apply Hw. }
  rewrite E, Ha. destruct (mem_spec k [txt "Ct"; txt "Cu"]) as [_|Hn]; [reflexivity|].
  exfalso. apply Hn. destruct Hc as [->| ->]; cbn; tauto.
Qed.
Lemma ex_ct : get_var Z.div (set_var m0 (txt "Ct") 10) (txt "Ct") = Ok (Some 5).
Proof. vm_compute. reflexivity. Qed.
Lemma ex_immutable_set : get_var Z.div (set_var m0 zb 9) zb = Ok (Some 1).
Proof. vm_compute. reflexivity. Qed.
Lemma immutable_set_ignored {V} (m : model V) k v :
  In k (dkeys (vals (s m))) -> ~ In k (ismutable (s m)) -> set_var m k v = m.
Proof.
  intros Hk Hn. unfold set_var, setitem. destruct (dmem_keys k (vals (s m))) as [_|Hx]; [|tauto].
  destruct (mem_spec k (ismutable (s m))); [tauto|]. cbn [negb orb]. destruct m; reflexivity.
Qed.
Lemma ex_immutable_known : In zb (dkeys (vals (s m0))) /\ ~ In zb (ismutable (s m0)).
Proof. split; [cbn; tauto|]. cbn. intros [H|[H|[]]]; discriminate H. Qed.

Lemma ex_enum : NoDup (dkeys (vals (s m0))) /\
  names_upto m0 (get_var_count m0) = map (fun k => Ok (Some k)) [txt "Ct"; uw; zb].
Proof.
  split; [|vm_compute; reflexivity]. apply nodupb_spec. vm_compute. reflexivity.
Qed.
Lemma ex_negative : get_var_name m0 (-1) = Ok (Some zb) /\ get_var_name m0 (-4) = Raise IndexError.
Proof. split; vm_compute; reflexivity. Qed.
Lemma ex_set_index : set_var_index m0 1 7 = Ok (set_var m0 uw 7) /\ set_var_index m0 3 7 = Ok m0.
Proof. split; vm_compute; reflexivity. Qed.

Local Open Scope nat_scope.
Definition sizes_ex : dict nat := [(txt "nx", 4); (txt "ny", 2); (txt "nlayers", 3); (txt "nfractions", 5)].
Lemma ex_sizes : sizes sizes_ex 2 4 3 5.
Proof. repeat split. Qed.
Lemma ex_declared : declared dims2 (txt "zb") /\ declared dims3f (txt "pickup") /\ declared dims3l (txt "thlyr")
  /\ declared dims4 (txt "mass").
Proof.
  unfold declared, MODEL_STATE. repeat split; eexists.
  - split; [left; reflexivity|]. exists "zb"%string. split; [|reflexivity]. cbn. tauto.
  - split; [right; left; reflexivity|]. exists "pickup"%string. split; [|reflexivity]. cbn. tauto.
  - split; [right; right; left; reflexivity|]. exists "thlyr"%string. split; [|reflexivity]. cbn. tauto.
  - split; [right; right; right; left; reflexivity|]. exists "mass"%string. split; [|reflexivity]. cbn. tauto.
Qed.

Definition m_obj : model value :=
  {| s := {| vals := [(txt "zb", Array [3; 5]); (txt "shear", Object)]; ismutable := [txt "zb"; txt "shear"] |}; p := [] |}.
Lemma object_without_shape : exists (m : model value) i k,
  (0 <= i < Z.of_nat (get_var_count m))%Z /\ get_var_name m i = Ok (Some k) /\
  get_var_shape value_shape m k = Raise AttributeError /\ get_var_rank value_shape m k = Raise AttributeError.
Proof.
  exists m_obj, 0%Z, (txt "shear"). split; [vm_compute; split; congruence|]. split; [vm_compute; reflexivity|].
  split; vm_compute; reflexivity.
Qed.
Definition m_arr : model value :=
  {| s := {| vals := [(txt "zb", Array [3; 5]); (txt "mass", Array [3; 5; 2; 4])]; ismutable := [] |}; p := [] |}.
Lemma ex_shapes : (forall k v, dget k (vals (s m_arr)) = Some v -> value_shape v <> None)
  /\ In (txt "mass") (dkeys (vals (s m_arr))).
Proof.
  split; [|cbn; tauto]. intros k v. cbn [m_arr vals s dget].
  destruct (text_eqb k (txt "zb")); [intros E; injection E as <-; discriminate|].
  destruct (text_eqb k (txt "mass")); [intros E; injection E as <-; discriminate|discriminate].
Qed.

(** ** tables *)
Definition exists_varb (n : text) : bool := existsb (fun e => existsb (fun x => text_eqb n (txt x)) (snd e)) MODEL_STATE.
Lemma exists_varb_spec n : reflect (exists_var n) (exists_varb n).
Proof.
  unfold exists_var, declared, exists_varb. destruct (existsb _ MODEL_STATE) eqn:E; constructor.
  - apply existsb_exists in E. destruct E as [[dims names] [Hi E]]. apply existsb_exists in E.
    destruct E as [x [Hx E]]. exists dims, names. split; [exact Hi|]. exists x. split; [exact Hx|].
    destruct (text_eqb_spec n (txt x)); [assumption|discriminate].
  - intros [dims [names [Hi [x [Hx ->]]]]].
    assert (H : existsb (fun e => existsb (fun y => text_eqb (txt x) (txt y)) (snd e)) MODEL_STATE = true); [|congruence].
    apply existsb_exists. exists (dims, names). split; [exact Hi|]. apply existsb_exists. exists x.
    split; [exact Hx|]. apply text_eqb_refl.
Qed.
Lemma exists_var_false n : exists_varb n = false -> ~ exists_var n.
Proof. intros E H. destruct (exists_varb_spec n); [discriminate|contradiction]. Qed.
Lemma exists_var_true n : exists_varb n = true -> exists_var n.
Proof. intros E. destruct (exists_varb_spec n); [assumption|discriminate]. Qed.

Lemma default_output_missing : exists n, In n (map txt default_output_vars) /\ ~ exists_var n.
Proof.
  exists (txt "masspickup"). split; [cbn; tauto|]. apply exists_var_false. vm_compute. reflexivity.
Qed.
Lemma default_output_others : forall n, In n (map txt default_output_vars) -> n <> txt "masspickup" -> exists_var n.
Proof.
  assert (H : forallb (fun n => text_eqb n (txt "masspickup") || exists_varb n) (map txt default_output_vars) = true)
    by (vm_compute; reflexivity).
  intros n Hn Hne. rewrite forallb_forall in H. specialize (H n Hn). rewrite text_eqb_neq in H by exact Hne.
  now apply exists_var_true.
Qed.

Lemma shadowed_names : forall n, In n (map txt default_config_names) -> (exists_var n <-> In n shadowed).
Proof.
  assert (H : forallb (fun n => Bool.eqb (exists_varb n) (mem n shadowed)) (map txt default_config_names) = true)
    by (vm_compute; reflexivity).
  intros n Hn. rewrite forallb_forall in H. specialize (H n Hn). apply Bool.eqb_prop in H.
  destruct (exists_varb_spec n), (mem_spec n shadowed); try discriminate; tauto.
Qed.
Lemma set_param {V} (m : model V) k v : ~ In k (dkeys (vals (s m))) -> In k (dkeys (p m)) ->
  dget k (p (set_var m k v)) = Some v /\ s (set_var m k v) = s m.
Proof.
  intros Hs Hp. unfold set_var. destruct (dmem_keys k (vals (s m))); [tauto|].
  destruct (dmem_keys k (p m)); [|tauto]. cbn [p s]. split; [apply dget_dset_same|reflexivity].
Qed.
Lemma set_shadowed {V} (m : model V) k v : In k (dkeys (vals (s m))) -> p (set_var m k v) = p m.
Proof. intros Hs. unfold set_var. destruct (dmem_keys k (vals (s m))); [reflexivity|tauto]. Qed.
Definition m_shadow : model Z :=
  {| s := {| vals := [(txt "lateral", 0%Z); (txt "zb", 1%Z)]; ismutable := [txt "lateral"; txt "zb"] |};
     p := [(txt "lateral", 3%Z); (txt "dt", 60%Z)] |}.
Lemma shadowed_unreachable : exists (m : model Z) k v,
  In k (map txt default_config_names) /\ exists_var k /\ In k (dkeys (p m)) /\ In k (ismutable (s m)) /\
  dget k (p (set_var m k v)) <> Some v /\ get_var Z.div m k <> Ok (dget k (p m)).
Proof.
  exists m_shadow, (txt "lateral"), 9%Z. split; [|split; [|split; [|split; [|split]]]].
  - assert (E : mem (txt "lateral") (map txt default_config_names) = true) by (vm_compute; reflexivity).
    revert E. destruct (mem_spec (txt "lateral") (map txt default_config_names)); [tauto|discriminate].
  - apply exists_var_true. vm_compute. reflexivity.
  - cbn. tauto.
  - cbn. tauto.
  - vm_compute. discriminate.
  - vm_compute. discriminate.
Qed.
Lemma ex_set_param : ~ In (txt "dt") (dkeys (vals (s m_shadow))) /\ In (txt "dt") (dkeys (p m_shadow)).
Proof. split; [|cbn; tauto]. cbn. intros [H|[H|[]]]; discriminate H. Qed.

(** ** restart *)
Lemma ex_unpickle : vals (s m0) <> [].
Proof. discriminate. Qed.
Lemma restart_text_mode : exists (st : mstate Z) e, pickle_to_file Text st = Raise e.
Proof. exists (s m0), TypeError. reflexivity. Qed.
Lemma ex_others : uw <> zb /\ (zb = txt "accfac" -> uw <> txt "Ct" /\ uw <> txt "Cu").
Proof. split; [discriminate|]. intros H. discriminate H. Qed.
Lemma ex_beyond : get_var_name m0 3%Z = Ok None.
Proof. vm_compute. reflexivity. Qed.
Lemma ex_rank : get_var_shape value_shape m_arr (txt "mass") = Ok (Some [3; 5; 2; 4]) /\
  get_var_rank value_shape m_arr (txt "mass") = Ok (Some 4).
Proof. split; vm_compute; reflexivity. Qed.
Lemma ex_other_outputs : In (txt "zb") (map txt default_output_vars) /\ txt "zb" <> txt "masspickup".
Proof. split; [cbn; tauto|discriminate]. Qed.

(** A state without variables can be restored. *)
Lemma ex_unpickle_nothing : unpickle {| vals := ([] : dict Z); ismutable := [txt "zb"] |} = Ok {| vals := []; ismutable := [txt "zb"] |}.
Proof. reflexivity. Qed.

(** The grids of layers, of fractions and of both, by name. *)
Lemma named_shapes p ny nx nl nf : sizes p ny nx nl nf ->
  exists st, initialize_grids p = Ok st /\
    dget (txt "zb") (vals st) = Some [ny + 1; nx + 1] /\ dget (txt "pickup") (vals st) = Some [ny + 1; nx + 1; nf] /\
    dget (txt "thlyr") (vals st) = Some [ny + 1; nx + 1; nl] /\ dget (txt "mass") (vals st) = Some [ny + 1; nx + 1; nl; nf].
Proof.
  intros H. destruct (grid_shapes p ny nx nl nf H) as (st & E & Hs). exists st. split; [exact E|].
  destruct ex_declared as (D1 & D2 & D3 & D4).
  assert (K : forall dims v, declared dims v -> exists sh, dget v (vals st) = Some sh /\ documented_shape dims ny nx nl nf sh) by exact Hs.
  repeat split.
  - destruct (K _ _ D1) as (sh & -> & [[_ ->]|[[X _]|[[X _]|[X _]]]]); [reflexivity|discriminate X..].
  - destruct (K _ _ D2) as (sh & -> & [[X _]|[[_ ->]|[[X _]|[X _]]]]); [discriminate X|reflexivity|discriminate X..].
  - destruct (K _ _ D3) as (sh & -> & [[X _]|[[X _]|[[_ ->]|[X _]]]]); [discriminate X|discriminate X|reflexivity|discriminate X].
  - destruct (K _ _ D4) as (sh & -> & [[X _]|[[X _]|[[X _]|[_ ->]]]]); [discriminate X..|reflexivity].
Qed.
