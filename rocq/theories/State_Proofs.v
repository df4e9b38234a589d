From Coq Require Import Sorting.Sorted Sorting.Permutation.
From Verif Require Import Base State_Model State_Spec.

Lemma mem_spec k l : reflect (In k l) (mem k l).
Proof.
  unfold mem. destruct (existsb (text_eqb k) l) eqn:E; constructor.
  - apply existsb_exists in E. destruct E as [x [Hx Ex]]. destruct (text_eqb_spec k x); [now subst|discriminate].
  - intros H. assert (existsb (text_eqb k) l = true); [|congruence].
    apply existsb_exists. exists k. split; [exact H|apply text_eqb_refl].
Qed.

Lemma mem_app k a b : mem k (a ++ b) = mem k a || mem k b.
Proof. unfold mem. apply existsb_app. Qed.

Lemma mem_set_mutable {V} k k' (st : mstate V) :
  mem k (ismutable (set_mutable k' st)) = text_eqb k k' || mem k (ismutable st).
Proof.
  unfold set_mutable. cbn [ismutable]. destruct (mem k' (ismutable st)) eqn:E.
  - destruct (text_eqb_spec k k') as [->|]; cbn [orb]; congruence.
  - rewrite mem_app. unfold mem at 2. cbn [existsb]. rewrite orb_false_r. apply orb_comm.
Qed.

Lemma mem_filter k k' l :
  mem k (filter (fun x => negb (text_eqb k' x)) l) = negb (text_eqb k' k) && mem k l.
Proof.
  induction l as [|x l IH]; cbn [filter]; [now rewrite andb_false_r|].
  destruct (text_eqb_spec k' x) as [->|Hx]; cbn [negb].
  - rewrite IH. unfold mem at 2. cbn [existsb]. fold (mem k l).
    destruct (text_eqb_spec x k) as [->|Hk]; cbn [negb andb]; [reflexivity|].
    rewrite text_eqb_neq by congruence. reflexivity.
  - unfold mem. cbn [existsb]. fold (mem k (filter (fun x => negb (text_eqb k' x)) l)). fold (mem k l).
    rewrite IH. destruct (text_eqb_spec k x) as [->|]; cbn [orb]; [|reflexivity].
    rewrite text_eqb_neq by congruence. reflexivity.
Qed.

Lemma mem_set_immutable {V} k k' (st : mstate V) :
  mem k (ismutable (set_immutable k' st)) = negb (text_eqb k' k) && mem k (ismutable st).
Proof.
  unfold set_immutable. destruct (mem k' (ismutable st)) eqn:E; cbn [ismutable].
  - apply mem_filter.
  - destruct (text_eqb_spec k' k) as [->|]; cbn [negb andb]; [exact E|reflexivity].
Qed.

Lemma vals_set_immutable {V} k (st : mstate V) : vals (set_immutable k st) = vals st.
Proof. unfold set_immutable. destruct (mem k (ismutable st)); reflexivity. Qed.

Lemma dget_setitem_other {V} k k' v (st : mstate V) : k <> k' -> dget k (vals (setitem k' v st)) = dget k (vals st).
Proof.
  intros H. unfold setitem. destruct (negb (dmem k' (vals st)) || mem k' (ismutable st)); [|reflexivity].
  cbn [set_mutable vals]. now apply dget_dset_other.
Qed.

Lemma mem_setitem_other {V} k k' v (st : mstate V) : k <> k' ->
  mem k (ismutable (setitem k' v st)) = mem k (ismutable st).
Proof.
  intros H. unfold setitem. destruct (negb (dmem k' (vals st)) || mem k' (ismutable st)); [|reflexivity].
  rewrite mem_set_mutable. rewrite text_eqb_neq by exact H. reflexivity.
Qed.

Lemma setitem_writable {V} k v (st : mstate V) :
  negb (dmem k (vals st)) || mem k (ismutable st) = true ->
  dget k (vals (setitem k v st)) = Some v /\ mem k (ismutable (setitem k v st)) = true.
Proof.
  intros H. unfold setitem. rewrite H. split.
  - apply dget_dset_same.
  - rewrite mem_set_mutable, text_eqb_refl. reflexivity.
Qed.

(** ** Refinement to the per-variable automaton *)
Definition agrees {V} (k : text) (st : mstate V) (e : option V * bool) : Prop :=
  dget k (vals st) = fst e /\
  snd e = match fst e with Some _ => negb (mem k (ismutable st)) | None => false end.

Lemma step_agrees {V} k o (st st' : mstate V) e :
  plain_op o -> agrees k st e -> step o st = Ok st' -> agrees k st' (expect1 k e o).
Proof.
  destruct e as [v fixed]. unfold agrees. cbn [fst snd]. intros Ho [Hv Hf].
  destruct o as [k' x|d|k' f|k'|k']; cbn [plain_op] in Ho; try tauto; cbn [step expect1];
    intros E; apply Ok_inj in E; subst st'.
  - destruct (text_eqb_spec k k') as [<-|Hk].
    + unfold setitem. unfold dmem. rewrite Hv. destruct v as [v|].
      * cbn [negb orb]. destruct (mem k (ismutable st)) eqn:Em; cbn [negb] in Hf; subst fixed; cbn [fst snd].
        { split; [apply dget_dset_same|]. rewrite mem_set_mutable, text_eqb_refl. reflexivity. }
        { split; [exact Hv|]. rewrite Em. reflexivity. }
      * subst fixed. cbn [negb orb fst snd]. split; [apply dget_dset_same|].
        rewrite mem_set_mutable, text_eqb_refl. reflexivity.
    + cbn [fst snd]. rewrite dget_setitem_other, mem_setitem_other by exact Hk. tauto.
  - cbn [set_mutable vals]. destruct (text_eqb_spec k k') as [<-|Hk]; cbn [fst snd].
    + split; [exact Hv|]. rewrite mem_set_mutable, text_eqb_refl. destruct v; reflexivity.
    + split; [exact Hv|]. rewrite mem_set_mutable. rewrite text_eqb_neq by exact Hk. exact Hf.
  - rewrite vals_set_immutable, mem_set_immutable.
    destruct (text_eqb_spec k k') as [<-|Hk]; cbn [fst snd].
    + split; [exact Hv|]. rewrite text_eqb_refl. cbn [negb andb]. destruct v; [reflexivity|exact Hf].
    + split; [exact Hv|]. rewrite text_eqb_neq by congruence. exact Hf.
Qed.

Lemma run_plain {V} (os : list (op V)) : Forall plain_op os ->
  forall st, exists st', run_ops os st = Ok st'.
Proof.
  induction os as [|o os IH]; intros F st; [now exists st|].
  inversion F as [|? ? Ho F']; subst. destruct o; cbn [plain_op] in Ho; try tauto;
    cbn [run_ops step bind]; now apply IH.
Qed.

Lemma run_agrees {V} k (os : list (op V)) : Forall plain_op os ->
  forall st st' e, agrees k st e -> run_ops os st = Ok st' -> agrees k st' (fold_left (expect1 k) os e).
Proof.
  induction os as [|o os IH]; intros F st st' e Ha H; cbn [run_ops fold_left] in *.
  - apply Ok_inj in H. now subst.
  - inversion F as [|? ? Ho F']; subst. destruct (step o st) as [st1|] eqn:E; [|discriminate].
    cbn [bind] in H. apply (IH F' st1); [|exact H]. now apply (step_agrees k o st).
Qed.

Lemma state_refines {V} (os : list (op V)) : Forall plain_op os ->
  exists st, run_ops os empty_state = Ok st /\ forall k, dget k (vals st) = fst (expected k os).
Proof.
  intros F. destruct (run_plain os F empty_state) as [st Hst]. exists st. split; [exact Hst|].
  intros k. assert (H0 : agrees k (@empty_state V) (None, false)) by (split; reflexivity).
  exact (proj1 (run_agrees k os F _ _ _ H0 Hst)).
Qed.

Lemma fold_dset_other {V} k (d : dict V) : forall a, ~ In k (dkeys d) ->
  dget k (fold_left (fun a kv => dset (fst kv) (snd kv) a) d a) = dget k a.
Proof.
  unfold dkeys. induction d as [|[k1 v1] d IH]; intros a H; cbn [fold_left fst snd map In] in *; [reflexivity|].
  rewrite IH by tauto. apply dget_dset_other. intros ->. tauto.
Qed.

Lemma fixed_step {V} k v o (st st' : mstate V) :
  leaves k o -> dget k (vals st) = Some v -> mem k (ismutable st) = false ->
  step o st = Ok st' -> dget k (vals st') = Some v /\ mem k (ismutable st') = false.
Proof.
  intros Hl Hv Hm. destruct o as [k' x|d|k' f|k'|k']; cbn [leaves] in Hl; cbn [step]; intros H.
  - apply Ok_inj in H; subst st'. destruct (text_eqb_spec k k') as [<-|Hk].
    + unfold setitem, dmem. rewrite Hv, Hm. cbn [negb orb]. tauto.
    + rewrite dget_setitem_other, mem_setitem_other by exact Hk. tauto.
  - apply Ok_inj in H; subst st'. cbn [bulk_update vals ismutable]. rewrite fold_dset_other by exact Hl. tauto.
  - unfold in_place in H. destruct (dget k' (vals st)); [|discriminate]. apply Ok_inj in H; subst st'.
    cbn [vals ismutable]. rewrite dget_dset_other by congruence. tauto.
  - apply Ok_inj in H; subst st'. rewrite mem_set_mutable, text_eqb_neq by congruence. tauto.
  - apply Ok_inj in H; subst st'. rewrite vals_set_immutable, mem_set_immutable.
    rewrite Hm, andb_false_r. tauto.
Qed.

Lemma fixed_stays {V} k v (os : list (op V)) : Forall (leaves k) os ->
  forall st st', dget k (vals st) = Some v -> ~ In k (ismutable st) ->
  run_ops os st = Ok st' -> dget k (vals st') = Some v.
Proof.
  intros F st st' Hv Hm. destruct (mem_spec k (ismutable st)) as [Hi|Hi]; [tauto|]. clear Hm.
  assert (Hm : mem k (ismutable st) = false) by (destruct (mem_spec k (ismutable st)); tauto).
  clear Hi. revert st Hv Hm. induction os as [|o os IH]; intros st Hv Hm H; cbn [run_ops] in H.
  - apply Ok_inj in H. now subst.
  - inversion F as [|? ? Ho F']; subst. destruct (step o st) as [st1|] eqn:E; [|discriminate].
    cbn [bind] in H. destruct (fixed_step k v o st st1 Ho Hv Hm E) as [Hv1 Hm1].
    exact (IH F' st1 Hv1 Hm1 H).
Qed.

(** ** BMI *)
Lemma dmem_keys {V} k (d : dict V) : reflect (In k (dkeys d)) (dmem k d).
Proof.
  unfold dmem. destruct (dget k d) as [v|] eqn:E; constructor.
  - apply dget_In_keys. now exists v.
  - now apply dget_None_keys.
Qed.

Lemma set_get {V} (div : V -> V -> V) (m : model V) k v :
  known m k -> writable m k -> k <> txt "Ct" -> k <> txt "Cu" ->
  get_var div (set_var m k v) k = Ok (Some v).
Proof.
  intros Hk Hw H1 H2. unfold set_var.
  destruct (dmem_keys k (vals (s m))) as [Hs|Hs].
  - unfold get_var. cbn [s p].
    assert (E : dget k (vals (setitem k v (s m))) = Some v).
    { apply setitem_writable. destruct (mem_spec k (ismutable (s m))) as [_|Hn]; [apply orb_true_r|].
      exfalso. apply Hn. now apply Hw. }
    rewrite E. destruct (mem_spec k [txt "Ct"; txt "Cu"]) as [[Hi|[Hi|[]]]|_]; [congruence|congruence|reflexivity].
  - destruct Hk as [Hk|Hk]; [tauto|]. destruct (dmem_keys k (p m)) as [_|Hn]; [|tauto].
    unfold get_var. cbn [s p]. rewrite (proj2 (dget_None_keys k _) Hs). now rewrite dget_dset_same.
Qed.

Lemma set_get_other {V} (div : V -> V -> V) (m : model V) k v k' :
  k' <> k -> (k = txt "accfac" -> k' <> txt "Ct" /\ k' <> txt "Cu") ->
  get_var div (set_var m k v) k' = get_var div m k'.
Proof.
  intros Hk Ha. unfold set_var. destruct (dmem k (vals (s m))).
  - unfold get_var. cbn [s p]. rewrite dget_setitem_other by exact Hk. reflexivity.
  - destruct (dmem k (p m)); [|reflexivity]. unfold get_var. cbn [s p].
    rewrite (dget_dset_other k') by exact Hk.
    destruct (dget k' (vals (s m))); [|reflexivity].
    destruct (mem_spec k' [txt "Ct"; txt "Cu"]) as [Hi|_]; [|reflexivity].
    destruct (text_eqb_spec k (txt "accfac")) as [E|E].
    + destruct (Ha E). destruct Hi as [Hi|[Hi|[]]]; congruence.
    + rewrite dget_dset_other by congruence. reflexivity.
Qed.

Lemma set_unknown {V} (m : model V) k v : ~ known m k -> set_var m k v = m.
Proof.
  intros H. unfold set_var, known in *. destruct (dmem_keys k (vals (s m))); [tauto|].
  destruct (dmem_keys k (p m)); [tauto|reflexivity].
Qed.

Lemma get_unknown {V} (div : V -> V -> V) (m : model V) k : ~ known m k -> get_var div m k = Ok None.
Proof.
  intros H. unfold get_var, known in *. rewrite (proj2 (dget_None_keys k (vals (s m)))) by tauto.
  now rewrite (proj2 (dget_None_keys k (p m))) by tauto.
Qed.

Lemma dkeys_dset_mem {V} k k' v (d : dict V) : In k (dkeys d) -> In k (dkeys (dset k' v d)).
Proof.
  rewrite dkeys_dset. destruct (dmem k' d); [tauto|]. intros H. apply in_or_app. now left.
Qed.

Lemma dset_keys_known {V} k v (d : dict V) : In k (dkeys d) -> dkeys (dset k v d) = dkeys d.
Proof. intros H. rewrite dkeys_dset. now destruct (dmem_keys k d). Qed.

(** Setting variables never adds or removes names. *)
Lemma set_var_keys {V} (m : model V) k v :
  dkeys (vals (s (set_var m k v))) = dkeys (vals (s m)) /\ dkeys (p (set_var m k v)) = dkeys (p m).
Proof.
  unfold set_var. destruct (dmem_keys k (vals (s m))) as [Hs|Hs].
  - cbn [s p]. split; [|reflexivity]. unfold setitem.
    destruct (negb (dmem k (vals (s m))) || mem k (ismutable (s m))); [|reflexivity].
    cbn [set_mutable vals]. now apply dset_keys_known.
  - destruct (dmem_keys k (p m)) as [Hp|Hp]; [|split; reflexivity]. cbn [s p].
    split; [reflexivity|]. now apply dset_keys_known.
Qed.

Lemma set_var_writable {V} (m : model V) k v k' : writable m k' -> writable (set_var m k v) k'.
Proof.
  unfold writable. intros H. rewrite (proj1 (set_var_keys m k v)). intros Hk. specialize (H Hk).
  unfold set_var. destruct (dmem k (vals (s m))).
  - cbn [s]. destruct (mem_spec k' (ismutable (setitem k v (s m)))) as [Hi|Hi]; [exact Hi|].
    exfalso. apply Hi. unfold setitem. destruct (negb (dmem k (vals (s m))) || mem k (ismutable (s m))); [|exact H].
    destruct (mem_spec k' (ismutable (set_mutable k {| vals := dset k v (vals (s m)); ismutable := ismutable (s m) |}))) as [Hj|Hj]; [exact Hj|].
    exfalso. assert (E : mem k' (ismutable (set_mutable k {| vals := dset k v (vals (s m)); ismutable := ismutable (s m) |})) = false)
      by (destruct (mem_spec k' (ismutable (set_mutable k {| vals := dset k v (vals (s m)); ismutable := ismutable (s m) |}))); tauto).
    rewrite mem_set_mutable in E. cbn [ismutable] in E. apply orb_false_iff in E. destruct E as [_ E].
    destruct (mem_spec k' (ismutable (s m))); [discriminate|tauto].
  - destruct (dmem k (p m)); exact H.
Qed.

Lemma sets_get_last {V} (div : V -> V -> V) (sets : list (text * V)) : forall (m : model V) k,
  known m k -> writable m k -> k <> txt "Ct" -> k <> txt "Cu" ->
  get_var div (fold_left (fun m kv => set_var m (fst kv) (snd kv)) sets m) k
  = last_value k sets (get_var div m k).
Proof.
  induction sets as [|[k' v] sets IH]; intros m k Hk Hw H1 H2; cbn [fold_left last_value fst snd]; [reflexivity|].
  rewrite IH; try assumption.
  - f_equal. destruct (text_eqb_spec k k') as [<-|Hne].
    + now apply set_get.
    + apply set_get_other; [exact Hne|tauto].
  - unfold known. destruct (set_var_keys m k' v) as [-> ->]. exact Hk.
  - now apply set_var_writable.
Qed.

(** ** enumeration *)
Lemma sorted_strict (l : list text) : NoDup l -> StronglySorted (key_le (fun x => x)) l -> StronglySorted text_lt l.
Proof.
  induction l as [|x l IH]; intros Hn Hs; [constructor|].
  inversion Hn as [|? ? Hx Hn']; subst. inversion Hs as [|? ? Hs' Hf]; subst.
  constructor; [now apply IH|]. rewrite Forall_forall in *. intros y Hy. split; [now apply Hf|].
  intros ->. tauto.
Qed.

Lemma get_var_name_nth {V} (m : model V) i : i < get_var_count m ->
  exists k, nth_error (sort_by (fun x => x) (dkeys (vals (s m)))) i = Some k /\
    get_var_name m (Z.of_nat i) = Ok (Some k).
Proof.
  unfold get_var_count, get_var_name. intros H.
  set (keys := sort_by (fun x => x) (dkeys (vals (s m)))).
  assert (Hl : length keys = length (vals (s m))).
  { unfold keys. rewrite (Permutation_length (sort_by_perm _ _)). unfold dkeys. apply map_length. }
  destruct (nth_error keys i) as [k|] eqn:E.
  2:{ apply nth_error_None in E. lia. }
  exists k. split; [reflexivity|].
  rewrite Z.gtb_ltb. destruct (Z.ltb_spec (Z.of_nat i) (Z.of_nat (length (vals (s m))))); [|lia].
  destruct (Z.ltb_spec (Z.of_nat i) 0); [lia|]. destruct (Z.ltb_spec (Z.of_nat i) 0); [lia|].
  rewrite Nat2Z.id, E. reflexivity.
Qed.

Lemma names_sorted_keys {V} (m : model V) :
  names_upto m (get_var_count m) = map (fun k => Ok (Some k)) (sort_by (fun x => x) (dkeys (vals (s m)))).
Proof.
  unfold names_upto. set (keys := sort_by (fun x => x) (dkeys (vals (s m)))).
  assert (Hl : length keys = get_var_count m).
  { unfold keys, get_var_count. rewrite (Permutation_length (sort_by_perm _ _)). unfold dkeys. apply map_length. }
  assert (G : forall n, n <= get_var_count m ->
    map (fun i => get_var_name m (Z.of_nat i)) (seq 0 n) = map (fun k => Ok (Some k)) (firstn n keys)).
  { induction n as [|n IH]; intros Hn; [reflexivity|].
    rewrite seq_S, map_app, IH by lia. cbn [map Nat.add].
    destruct (get_var_name_nth m n ltac:(lia)) as [k [E ->]]. fold keys in E.
    apply nth_error_split in E. destruct E as [l1 [l2 [E El]]]. rewrite E.
    replace (firstn (S n) (l1 ++ k :: l2)) with (l1 ++ [k]).
    2:{ rewrite firstn_app, El. rewrite firstn_all2 by lia. replace (S n - n) with 1 by lia. reflexivity. }
    replace (firstn n (l1 ++ k :: l2)) with l1.
    2:{ rewrite firstn_app, El. rewrite firstn_all2 by lia. rewrite Nat.sub_diag. cbn [firstn]. now rewrite app_nil_r. }
    rewrite map_app. reflexivity. }
  rewrite G by lia. rewrite firstn_all2 by lia. reflexivity.
Qed.

Lemma enumeration {V} (m : model V) : NoDup (dkeys (vals (s m))) ->
  exists names, names_upto m (get_var_count m) = map (fun k => Ok (Some k)) names /\
    StronglySorted text_lt names /\ (forall k, In k names <-> In k (dkeys (vals (s m)))).
Proof.
  intros Hn. exists (sort_by (fun x => x) (dkeys (vals (s m)))). split; [apply names_sorted_keys|].
  pose proof (sort_by_perm (fun x : text => x) (dkeys (vals (s m)))) as Hp. split.
  - apply sorted_strict; [|apply sort_by_sorted]. eapply Permutation_NoDup; [|exact Hn]. now apply Permutation_sym.
  - intros k. split; apply Permutation_in; [exact Hp|now apply Permutation_sym].
Qed.

Lemma name_beyond {V} (m : model V) i : (Z.of_nat (get_var_count m) <= i)%Z -> get_var_name m i = Ok None.
Proof.
  unfold get_var_name, get_var_count. intros H. rewrite Z.gtb_ltb.
  destruct (Z.ltb_spec i (Z.of_nat (length (vals (s m))))); [lia|reflexivity].
Qed.

Lemma name_negative {V} (m : model V) i : (i < 0)%Z ->
  get_var_name m i = if (i <? - Z.of_nat (get_var_count m))%Z then Raise IndexError
                     else get_var_name m (Z.of_nat (get_var_count m) + i).
Proof.
  unfold get_var_name, get_var_count. intros H. set (n := Z.of_nat (length (vals (s m)))).
  assert (Hn : (0 <= n)%Z) by (unfold n; lia). rewrite !Z.gtb_ltb.
  destruct (Z.ltb_spec i n); [|lia]. destruct (Z.ltb_spec i 0); [|lia].
  destruct (Z.ltb_spec i (- n)).
  - destruct (Z.ltb_spec (n + i) 0); [reflexivity|lia].
  - destruct (Z.ltb_spec (n + i) 0); [lia|]. destruct (Z.ltb_spec (n + i) n); [|lia]. destruct (Z.ltb_spec (n + i) 0); [lia|reflexivity].
Qed.

Lemma set_index {V} (m : model V) i v : (0 <= i)%Z ->
  exists m', set_var_index m i v = Ok m' /\
    ((i < Z.of_nat (get_var_count m))%Z -> exists k, get_var_name m i = Ok (Some k) /\ m' = set_var m k v) /\
    ((Z.of_nat (get_var_count m) <= i)%Z -> m' = m).
Proof.
  intros H. unfold set_var_index. destruct (Z.lt_ge_cases i (Z.of_nat (get_var_count m))) as [Hi|Hi].
  - destruct (get_var_name_nth m (Z.to_nat i) ltac:(lia)) as [k [_ E]]. rewrite Z2Nat.id in E by lia.
    rewrite E. cbn [bind]. exists (set_var m k v). split; [reflexivity|]. split; [|lia].
    intros _. now exists k.
  - rewrite name_beyond by exact Hi. cbn [bind]. exists m. split; [reflexivity|]. split; [lia|reflexivity].
Qed.

(** ** allocation *)
Lemma dims2shape_doc p ny nx nl nf dims : sizes p ny nx nl nf ->
  In dims [dims2; dims3f; dims3l; dims4] ->
  exists sh, dims2shape p dims = Ok sh /\ documented_shape dims ny nx nl nf sh.
Proof.
  intros [Hy [Hx [Hl Hf]]] H. unfold documented_shape.
  assert (M1 : mem (txt "ny") [txt "nx"; txt "ny"] = true) by reflexivity.
  assert (M2 : mem (txt "nx") [txt "nx"; txt "ny"] = true) by reflexivity.
  assert (M3 : mem (txt "nlayers") [txt "nx"; txt "ny"] = false) by reflexivity.
  assert (M4 : mem (txt "nfractions") [txt "nx"; txt "ny"] = false) by reflexivity.
  destruct H as [<-|[<-|[<-|[<-|[]]]]]; eexists;
    (split; [unfold dims2, dims3f, dims3l, dims4; cbn [dims2shape];
             rewrite ?Hy, ?Hx, ?Hl, ?Hf, ?M1, ?M2, ?M3, ?M4; cbn [bind]; reflexivity|]);
    rewrite !Nat.add_1_r; tauto.
Qed.

Lemma allocate_spec p vars : (forall v d, dget v vars = Some d -> exists sh, dims2shape p d = Ok sh) ->
  NoDup (dkeys vars) ->
  forall st, (forall v, In v (dkeys vars) -> dget v (vals st) = None) ->
  exists st', allocate p vars st = Ok st' /\
    (forall v d, dget v vars = Some d -> exists sh, dims2shape p d = Ok sh /\ dget v (vals st') = Some sh) /\
    (forall v, ~ In v (dkeys vars) -> dget v (vals st') = dget v (vals st)).
Proof.
  unfold dkeys. induction vars as [|[v0 d0] vars IH]; intros Hd Hn st Hs; cbn [allocate].
  - exists st. split; [reflexivity|]. split; [discriminate|reflexivity].
  - cbn [map fst] in Hn, Hs. inversion Hn as [|? ? Hv0 Hn']; subst.
    destruct (Hd v0 d0) as [sh0 E0]. { cbn [dget]. now rewrite text_eqb_refl. }
    rewrite E0. cbn [bind].
    assert (Hset : dget v0 (vals (setitem v0 sh0 st)) = Some sh0).
    { apply setitem_writable. unfold dmem. rewrite Hs by (now left). reflexivity. }
    destruct (IH) with (st := setitem v0 sh0 st) as [st' [Ha [H1 H2]]].
    + intros v d Hg. apply (Hd v). cbn [dget]. destruct (text_eqb_spec v v0) as [->|]; [|exact Hg].
      exfalso. apply Hv0. apply dget_In_keys. now exists d.
    + exact Hn'.
    + intros v Hv. rewrite dget_setitem_other; [apply Hs; now right|]. intros ->. tauto.
    + exists st'. split; [exact Ha|]. split.
      * intros v d Hg. cbn [dget] in Hg. destruct (text_eqb_spec v v0) as [->|Hne].
        { injection Hg as <-. exists sh0. split; [exact E0|]. rewrite H2 by exact Hv0. exact Hset. }
        { exact (H1 v d Hg). }
      * intros v Hv. cbn [map fst] in Hv. rewrite H2 by (intros Hi; apply Hv; now right).
        apply dget_setitem_other. intros ->. apply Hv. now left.
Qed.

(** Boolean checks on the concrete tables. *)
Fixpoint text_list_eqb (a b : list text) : bool :=
  match a, b with
  | [], [] => true
  | x :: a', y :: b' => text_eqb x y && text_list_eqb a' b'
  | _, _ => false
  end.
Lemma text_list_eqb_eq a : forall b, text_list_eqb a b = true -> a = b.
Proof.
  induction a as [|x a IH]; intros [|y b]; cbn [text_list_eqb]; try congruence.
  intros H. apply andb_true_iff in H. destruct H as [H1 H2].
  destruct (text_eqb_spec x y) as [->|]; [|discriminate]. f_equal. now apply IH.
Qed.

Fixpoint nodupb (l : list text) : bool :=
  match l with [] => true | x :: l' => negb (mem x l') && nodupb l' end.
Lemma nodupb_spec l : nodupb l = true -> NoDup l.
Proof.
  induction l as [|x l IH]; cbn [nodupb]; intros H; constructor; apply andb_true_iff in H; destruct H as [H1 H2].
  - destruct (mem_spec x l); [discriminate|assumption].
  - now apply IH.
Qed.

Lemma dimensions_nodup : NoDup (dkeys dimensions).
Proof. apply nodupb_spec. vm_compute. reflexivity. Qed.

Lemma dimensions_dims : forall v d, dget v dimensions = Some d -> In d [dims2; dims3f; dims3l; dims4].
Proof.
  assert (H : forallb (fun kv => existsb (text_list_eqb (snd kv)) [dims2; dims3f; dims3l; dims4]) dimensions = true)
    by (vm_compute; reflexivity).
  intros v d Hd. rewrite forallb_forall in H.
  assert (Hin : exists v', In (v', d) dimensions).
  { clear H. revert Hd. induction dimensions as [|[k x] l IH]; cbn [dget]; [discriminate|].
    destruct (text_eqb_spec v k) as [->|].
    - intros E. injection E as ->. exists k. now left.
    - intros E. destruct (IH E) as [v' Hv']. exists v'. now right. }
  destruct Hin as [v' Hv']. specialize (H _ Hv'). apply existsb_exists in H. destruct H as [x [Hx E]].
  cbn [snd] in E. apply text_list_eqb_eq in E. now subst.
Qed.

Lemma dimensions_complete : forall dims v, declared dims v -> dget v dimensions = Some dims.
Proof.
  assert (H : forallb (fun e => forallb (fun n =>
      match dget (txt n) dimensions with Some d => text_list_eqb d (fst e) | None => false end) (snd e)) MODEL_STATE = true)
    by (vm_compute; reflexivity).
  intros dims v [names [Hn [n [Hi ->]]]]. rewrite forallb_forall in H. specialize (H _ Hn).
  cbn [fst snd] in H. rewrite forallb_forall in H. specialize (H n Hi).
  destruct (dget (txt n) dimensions) as [d|]; [|discriminate]. apply text_list_eqb_eq in H. now subst.
Qed.

Lemma declared_once dims dims' v : declared dims v -> declared dims' v -> dims = dims'.
Proof. intros H H'. apply dimensions_complete in H, H'. congruence. Qed.

Lemma grid_shapes p ny nx nl nf : sizes p ny nx nl nf ->
  exists st, initialize_grids p = Ok st /\
    forall dims v, declared dims v ->
      exists sh, dget v (vals st) = Some sh /\ documented_shape dims ny nx nl nf sh.
Proof.
  intros Hs. destruct (allocate_spec p dimensions) with (st := @empty_state (list nat)) as [st [Ha [H1 _]]].
  - intros v d Hd. apply dimensions_dims in Hd. destruct (dims2shape_doc p ny nx nl nf d Hs Hd) as [sh [E _]]. now exists sh.
  - apply dimensions_nodup.
  - reflexivity.
  - exists st. split; [exact Ha|]. intros dims v Hv. apply dimensions_complete in Hv.
    destruct (H1 v dims Hv) as [sh [E Hg]]. exists sh. split; [exact Hg|].
    destruct (dims2shape_doc p ny nx nl nf dims Hs (dimensions_dims _ _ Hv)) as [sh' [E' Hd]]. congruence.
Qed.

Lemma rank_shape {V} (shape : V -> option (list nat)) (m : model V) var :
  match get_var_shape shape m var with
  | Ok (Some sh) => get_var_rank shape m var = Ok (Some (length sh))
  | Ok None => get_var_rank shape m var = Ok None /\ ~ In var (dkeys (vals (s m)))
  | Raise e => get_var_rank shape m var = Raise e
  end.
Proof.
  unfold get_var_shape, get_var_rank. destruct (dget var (vals (s m))) as [v|] eqn:E.
  - destruct (shape v); reflexivity.
  - split; [reflexivity|]. now apply dget_None_keys.
Qed.

Lemma shape_available {V} (shape : V -> option (list nat)) (m : model V) var :
  (forall k v, dget k (vals (s m)) = Some v -> shape v <> None) ->
  In var (dkeys (vals (s m))) -> exists sh, get_var_shape shape m var = Ok (Some sh) /\
    get_var_rank shape m var = Ok (Some (length sh)).
Proof.
  intros H Hv. apply dget_In_keys in Hv. destruct Hv as [v E]. unfold get_var_shape, get_var_rank. rewrite E.
  specialize (H var v E). destruct (shape v) as [sh|]; [|congruence]. now exists sh.
Qed.

(** ** pickling *)
Lemma unpickle_nothing {V} (st st' : mstate V) : unpickle st = Ok st' <-> vals st = [] /\ st' = st.
Proof.
  unfold unpickle. destruct st as [[|[k v] d] l]; cbn; split.
  - intros H. injection H as <-. split; reflexivity.
  - intros [_ ->]. reflexivity.
  - discriminate.
  - intros [H _]. discriminate.
Qed.
Lemma unpickle_fails {V} (st : mstate V) : vals st <> [] -> unpickle st = Raise AttributeError.
Proof.
  unfold unpickle. destruct (vals st) as [|[k v] d]; [congruence|]. reflexivity.
Qed.
