(** Proofs about the output file: properties C101-C105. *)
From Verif Require Import Base State_Model State_Spec State_Proofs Config_Model Netcdf_Text Netcdf_Model Netcdf_Spec.

(** ** Creation of variables *)
Definition names (f : list ncvar) : list text := map vname f.
Definition dims_ok (dims : dict (option nat)) (v : ncvar) : Prop := forallb (fun d => dmem d dims) (vdims v) = true.

Lemma taken_iff n f : existsb (fun w => text_eqb (vname w) n) f = true <-> In n (names f).
Proof.
  rewrite existsb_exists. unfold names. rewrite in_map_iff. split.
  - intros [w [Hw E]]. destruct (text_eqb_spec (vname w) n); [|discriminate]. now exists w.
  - intros [w [E Hw]]. exists w. rewrite E, text_eqb_refl. now split.
Qed.

Lemma create_ok dims v f : dims_ok dims v -> ~ In (vname v) (names f) -> create dims v f = Ok (f ++ [v]).
Proof.
  intros Hd Hn. unfold create. destruct (existsb _ f) eqn:E.
  - now apply taken_iff in E.
  - unfold dims_ok in Hd. now rewrite Hd.
Qed.
Lemma create_taken dims v f : In (vname v) (names f) -> create dims v f = Raise RuntimeError.
Proof. intros H. unfold create. apply taken_iff in H. now rewrite H. Qed.
Lemma create_inv dims v f f' : create dims v f = Ok f' -> f' = f ++ [v] /\ ~ In (vname v) (names f) /\ dims_ok dims v.
Proof.
  unfold create, dims_ok. destruct (existsb _ f) eqn:E; [discriminate|].
  destruct (forallb _ _); [|discriminate]. intros H; injection H as <-.
  repeat split; auto. intros C. apply taken_iff in C. congruence.
Qed.

Lemma names_app f g : names (f ++ g) = names f ++ names g.
Proof. apply map_app. Qed.

Lemma NoDup_snoc {A} (l : list A) a : NoDup l -> ~ In a l -> NoDup (l ++ [a]).
Proof.
  induction l as [|x l IH]; intros H Ha; cbn.
  - constructor; [intros []|constructor].
  - inversion H; subst. constructor.
    + rewrite in_app_iff. intros [C|[C|[]]]; [contradiction|]. subst. apply Ha. now left.
    + apply IH; auto. intros C. apply Ha. now right.
Qed.
Lemma NoDup_app_l {A} (l m : list A) : NoDup (l ++ m) -> NoDup l.
Proof.
  induction l as [|x l IH]; intros H; cbn in *; [constructor|].
  inversion H; subst. constructor; auto. rewrite in_app_iff in H2. tauto.
Qed.

Lemma create_all_ok dims vs : forall f, Forall (dims_ok dims) vs -> NoDup (names f ++ names vs) ->
  create_all dims vs f = Ok (f ++ vs).
Proof.
  induction vs as [|v vs IH]; intros f Hd Hn; cbn [create_all].
  - now rewrite app_nil_r.
  - inversion Hd; subst. rewrite create_ok; auto.
    + cbn [bind]. rewrite IH; auto.
      * now rewrite <- app_assoc.
      * rewrite names_app, <- app_assoc. exact Hn.
    + cbn in Hn. apply NoDup_remove_2 in Hn. intros C. apply Hn. apply in_or_app. now left.
Qed.
Lemma create_all_taken dims vs : forall f, Forall (dims_ok dims) vs -> NoDup (names f) ->
  ~ NoDup (names f ++ names vs) -> create_all dims vs f = Raise RuntimeError.
Proof.
  induction vs as [|v vs IH]; intros f Hd Hf Hn; cbn [create_all].
  - cbn in Hn. rewrite app_nil_r in Hn. contradiction.
  - inversion Hd; subst.
    destruct (in_dec (list_eq_dec ascii_dec) (vname v) (names f)) as [i|i].
    + now rewrite create_taken.
    + rewrite create_ok; auto. cbn [bind]. apply IH; auto.
      * rewrite names_app. cbn. now apply NoDup_snoc.
      * rewrite names_app, <- app_assoc. exact Hn.
Qed.
Lemma create_all_inv dims vs : forall f f', create_all dims vs f = Ok f' -> f' = f ++ vs.
Proof.
  induction vs as [|v vs IH]; intros f f' H; cbn [create_all] in H.
  - injection H as <-. now rewrite app_nil_r.
  - destruct (create dims v f) as [f1|] eqn:E; [|discriminate]. cbn [bind] in H.
    apply create_inv in E as [-> _]. apply IH in H. now rewrite <- app_assoc in H.
Qed.

(** ** Dimensions *)
Lemma nc_dims_ok p ny nx nl nf : sizes p ny nx nl nf ->
  nc_dims p = Ok [(txt "s", Some (nx + 1)); (txt "n", Some (ny + 1)); (txt "time", None); (txt "nv", Some 2);
          (txt "nv2", Some 4); (txt "layers", Some nl); (txt "fractions", Some nf)].
Proof. intros [H1 [H2 [H3 H4]]]. unfold nc_dims. now rewrite H1, H2, H3, H4. Qed.

Lemma fixed_dims_ok rd p D : nc_dims p = Ok D -> Forall (dims_ok D) (fixed_vars rd).
Proof.
  unfold nc_dims. destruct (dget (txt "nx") p), (dget (txt "ny") p), (dget (txt "nlayers") p), (dget (txt "nfractions") p);
    try discriminate. intros H; injection H as <-. repeat (constructor; [reflexivity|]). constructor.
Qed.
Lemma table_dims_ok p D v ds : nc_dims p = Ok D -> dget v dimensions = Some ds ->
  forallb (fun d => dmem d D) (file_dims ds) = true.
Proof.
  intros HD Hv. apply dimensions_dims in Hv. unfold nc_dims in HD.
  destruct (dget (txt "nx") p), (dget (txt "ny") p), (dget (txt "nlayers") p), (dget (txt "nfractions") p);
    try discriminate. injection HD as <-.
  cbn [In] in Hv. destruct Hv as [<-|[<-|[<-|[<-|[]]]]]; reflexivity.
Qed.
Lemma requested_dims_ok p D known meta outvars : nc_dims p = Ok D ->
  Forall (dims_ok D) (flat_map (requested known dimensions meta) outvars).
Proof.
  intros HD. apply Forall_forall. intros w Hw. apply in_flat_map in Hw as [v [_ Hw]]. unfold requested in Hw.
  destruct (mem (fst v) known); [|destruct Hw].
  destruct (dget (fst v) dimensions) as [ds|] eqn:E; [|destruct Hw].
  apply in_map_iff in Hw as [ext [<- _]]. unfold dims_ok. cbn [vdims]. eapply table_dims_ok; eauto.
Qed.

Lemma fixed_names rd : names (fixed_vars rd) ++ [txt "crs"] = reserved.
Proof. reflexivity. Qed.
Lemma fixed_nodup rd : NoDup (names (fixed_vars rd)).
Proof.
  change (names (fixed_vars rd)) with (firstn 14 reserved). apply (NoDup_app_l _ (skipn 14 reserved)).
  rewrite firstn_skipn. repeat (constructor; [cbn; intuition discriminate|]). constructor.
Qed.

Lemma requested_names known dims meta outvars :
  names (flat_map (requested known dims meta) outvars) = asked_names known dims outvars.
Proof.
  induction outvars as [|[v0 exts] r IH]; [reflexivity|]. cbn [flat_map asked_names]. rewrite names_app, IH. f_equal.
  unfold requested. cbn [fst snd]. unfold dmem. destruct (mem v0 known); [|reflexivity]. cbn [andb].
  destruct (dget v0 dims); [|reflexivity]. unfold names. rewrite map_map. apply map_ext. now intros [e|].
Qed.

(** ** C101 *)
Lemma initialize_inv lines rd p known dims outvars D f : initialize lines rd p known dims outvars = Ok (D, f) ->
  nc_dims p = Ok D /\
  f = (fixed_vars rd ++ flat_map (requested known dims (parse_metadata lines (dkeys outvars))) outvars)
      ++ [{| vname := txt "crs"; vdims := []; vunits := None; vbounds := None |}].
Proof.
  unfold initialize. destruct (nc_dims p) as [D'|]; [|discriminate]. cbn [bind].
  destruct (create_all D' (fixed_vars rd) []) as [f1|] eqn:E1; [|discriminate]. cbn [bind].
  destruct (create_all _ (flat_map _ _) f1) as [f2|] eqn:E2; [|discriminate]. cbn [bind].
  destruct (create _ _ f2) as [f3|] eqn:E3; [|discriminate]. cbn [bind].
  intros H. injection H as <- <-. split; [reflexivity|].
  apply create_all_inv in E1, E2. apply create_inv in E3 as [-> _]. subst. reflexivity.
Qed.

Lemma file_name_named v0 ext : named v0 ext (file_name v0 ext).
Proof. destruct ext as [e|]; [right; now exists e|now left]. Qed.

Lemma mem_In k l : mem k l = true <-> In k l.
Proof.
  unfold mem. rewrite existsb_exists. split.
  - intros [x [Hx E]]. destruct (text_eqb_spec k x); [now subst|discriminate].
  - intros H. exists k. now rewrite text_eqb_refl.
Qed.

Lemma in_requested known dims meta outvars v0 ext ds : asked outvars v0 ext -> In v0 known -> dget v0 dims = Some ds ->
  In {| vname := file_name v0 ext; vdims := file_dims ds;
        vunits := match dget v0 meta with Some (Some (a :: u)) => Some (a :: u) | _ => None end;
        vbounds := None |} (flat_map (requested known dims meta) outvars).
Proof.
  intros [exts [Ho He]] Hk Hd. apply in_flat_map. exists (v0, exts). split; auto.
  unfold requested. cbn [fst snd]. apply mem_In in Hk. rewrite Hk, Hd.
  apply in_map_iff. now exists ext.
Qed.

Lemma c101_shape : forall lines refdate p ny nx nl nf known outvars D f v0 ext ds st, sizes p ny nx nl nf ->
  initialize lines refdate p known dimensions outvars = Ok (D, f) -> asked outvars v0 ext -> In v0 known ->
  declared ds v0 -> initialize_grids p = Ok st ->
  exists v sh, In v f /\ named v0 ext (vname v) /\ dget v0 (vals st) = Some sh /\
    forall nt, holds_shape D nt v sh.
Proof.
  intros lines rd p ny nx nl nf known outvars D f v0 ext ds st Hs Hi Ha Hk Hd Hg.
  apply initialize_inv in Hi as [HD ->].
  destruct (grid_shapes p ny nx nl nf Hs) as [st' [Hg' Hsh]]. rewrite Hg in Hg'. injection Hg' as <-.
  destruct (Hsh ds v0 Hd) as [sh [Hget Hdoc]].
  eexists. exists sh. split; [|split; [|split; [exact Hget|]]].
  - apply in_or_app. left. apply in_or_app. right. apply (in_requested known dimensions _ outvars v0 ext ds); auto. now apply dimensions_complete.
  - cbn [vname]. apply file_name_named.
  - intros nt. rewrite (nc_dims_ok _ _ _ _ _ Hs) in HD. injection HD as <-. unfold holds_shape. cbn [vdims].
    unfold documented_shape in Hdoc.
    destruct Hdoc as [[-> ->]|[[-> ->]|[[-> ->]|[-> ->]]]];
      repeat (constructor; [first [now left|right; now split]|]); constructor.
Qed.

Lemma c101_nothing_else : forall lines refdate p known dims outvars D f v,
  initialize lines refdate p known dims outvars = Ok (D, f) -> In v f ->
  In (vname v) reserved \/
  exists v0 ext, asked outvars v0 ext /\ In v0 known /\ In v0 (dkeys dims) /\ named v0 ext (vname v).
Proof.
  intros lines rd p known dims outvars D f v Hi Hv. apply initialize_inv in Hi as [_ ->].
  apply in_app_iff in Hv as [Hv|[<-|[]]].
  - apply in_app_iff in Hv as [Hv|Hv].
    + left. rewrite <- (fixed_names rd). apply in_or_app. left. now apply in_map.
    + right. apply in_flat_map in Hv as [[v0 exts] [Ho Hv]]. unfold requested in Hv. cbn [fst snd] in Hv.
      destruct (mem v0 known) eqn:Ek; [|destruct Hv].
      destruct (dget v0 dims) as [ds|] eqn:Ed; [|destruct Hv].
      apply in_map_iff in Hv as [ext [<- He]]. exists v0, ext. split; [now exists exts|]. split; [now apply mem_In|].
      split; [apply dget_In_keys; eauto|apply file_name_named].
  - left. cbn. tauto.
Qed.

(** ** C104 *)
Lemma nodup_dec (l : list text) : {NoDup l} + {~ NoDup l}.
Proof.
  induction l as [|a l IH]; [left; constructor|].
  destruct (in_dec (list_eq_dec ascii_dec) a l) as [i|i].
  - right. intros H. now inversion H.
  - destruct IH as [H|H]; [left; now constructor|right; intros C; now inversion C].
Qed.
Lemma nodup_swap {A} (l m : list A) a : NoDup ((l ++ [a]) ++ m) <-> NoDup ((l ++ m) ++ [a]).
Proof.
  rewrite <- !app_assoc. cbn. split; intros H.
  - apply NoDup_remove in H as [H1 H2]. rewrite app_assoc. now apply NoDup_snoc.
  - rewrite app_assoc in H. apply NoDup_remove in H as [H1 H2]. rewrite app_nil_r in *.
    clear -H1 H2. induction l as [|x l IH]; cbn in *; [now constructor|].
    inversion H1; subst. constructor.
    + rewrite in_app_iff in *. cbn. intuition congruence.
    + apply IH; tauto.
Qed.

Lemma c104_iff : forall lines refdate p ny nx nl nf known outvars, sizes p ny nx nl nf ->
  (NoDup (reserved ++ asked_names known dimensions outvars) ->
     is_ok (initialize lines refdate p known dimensions outvars)) /\
  (~ NoDup (reserved ++ asked_names known dimensions outvars) ->
     initialize lines refdate p known dimensions outvars = Raise RuntimeError).
Proof.
  intros lines rd p ny nx nl nf known outvars Hs. unfold initialize.
  pose proof (nc_dims_ok _ _ _ _ _ Hs) as HD. remember (nc_dims p) as o eqn:Eo. destruct o as [D|]; [|discriminate].
  clear HD. symmetry in Eo. rename Eo into HD. cbn [bind].
  rewrite (create_all_ok D (fixed_vars rd) []) by (eauto using fixed_dims_ok; apply fixed_nodup).
  cbn [bind app]. set (meta := parse_metadata lines (dkeys outvars)).
  rewrite <- (requested_names known dimensions meta outvars), <- (fixed_names rd), nodup_swap.
  set (vs := flat_map (requested known dimensions meta) outvars).
  assert (Hvs : Forall (dims_ok D) vs) by (eapply requested_dims_ok; eauto).
  split; intros H.
  - rewrite create_all_ok; auto; [|now apply NoDup_app_l in H].
    cbn [bind]. rewrite create_ok; [cbn [bind]; eexists; reflexivity|reflexivity|].
    rewrite names_app. apply NoDup_remove_2 in H. now rewrite app_nil_r in H.
  - destruct (nodup_dec (names (fixed_vars rd) ++ names vs)) as [n|n].
    + rewrite create_all_ok; auto. cbn [bind]. rewrite create_taken; [reflexivity|]. cbn [vname].
      rewrite names_app. destruct (in_dec (list_eq_dec ascii_dec) (txt "crs") (names (fixed_vars rd) ++ names vs)) as [i|i];
        [exact i|]. destruct H. now apply NoDup_snoc.
    + rewrite create_all_taken; auto using fixed_nodup.
Qed.

Lemma c104_runs : forall lines refdate p ny nx nl nf known outvars, sizes p ny nx nl nf ->
  NoDup (asked_names known dimensions outvars) ->
  (forall n, In n (asked_names known dimensions outvars) -> ~ In n reserved) ->
  is_ok (initialize lines refdate p known dimensions outvars).
Proof.
  intros lines rd p ny nx nl nf known outvars Hs Hn Hr. apply (c104_iff lines rd p ny nx nl nf known outvars Hs).
  assert (Hres : NoDup reserved).
  { rewrite <- (fixed_names []). apply NoDup_snoc; [apply fixed_nodup|]. cbn. intuition discriminate. }
  revert Hres Hr. generalize reserved as l. induction l as [|a l IH]; intros Hl Hr; cbn [app]; [exact Hn|].
  inversion Hl; subst. constructor.
  - rewrite in_app_iff. intros [C|C]; [contradiction|]. apply (Hr a C). now left.
  - apply IH; auto. intros n Hin C. apply (Hr n Hin). now right.
Qed.

Lemma c104_clash : forall lines refdate p ny nx nl nf known outvars n, sizes p ny nx nl nf ->
  In n (asked_names known dimensions outvars) -> In n reserved ->
  initialize lines refdate p known dimensions outvars = Raise RuntimeError.
Proof.
  intros lines rd p ny nx nl nf known outvars n Hs Ha Hr. apply (c104_iff lines rd p ny nx nl nf known outvars Hs).
  intros H. apply in_split in Hr as [a [b E]]. rewrite E in H. rewrite <- app_assoc in H. cbn [app] in H.
  apply NoDup_remove_2 in H. apply H. rewrite !in_app_iff. tauto.
Qed.

(** Every variable of the model but the two coordinates can be asked for alone. *)
Lemma table_reserved : forall ds v, declared ds v -> In v reserved -> v = txt "x" \/ v = txt "y".
Proof.
  intros ds v Hd Hr. apply dimensions_complete in Hd.
  assert (H : forallb (fun n => negb (dmem n dimensions) || text_eqb n (txt "x") || text_eqb n (txt "y")) reserved = true)
    by (vm_compute; reflexivity).
  rewrite forallb_forall in H. specialize (H v Hr). unfold dmem in H. rewrite Hd in H. cbn [negb orb] in H.
  destruct (text_eqb_spec v (txt "x")); [now left|]. destruct (text_eqb_spec v (txt "y")); [now right|discriminate].
Qed.
Lemma c104_each : forall lines refdate p ny nx nl nf known ds v, sizes p ny nx nl nf -> declared ds v ->
  v <> txt "x" -> v <> txt "y" -> is_ok (initialize lines refdate p known dimensions [(v, [None])]).
Proof.
  intros lines rd p ny nx nl nf known ds v Hs Hd Hx Hy. eapply c104_runs; eauto.
  - cbn [asked_names]. destruct (_ && _); cbn; repeat constructor; intros [].
  - intros n Hn Hr. assert (n = v) as ->.
    { cbn [asked_names] in Hn. destruct (_ && _); cbn in Hn; intuition. }
    destruct (table_reserved ds v Hd Hr); contradiction.
Qed.

(** ** C103: the pattern *)
Lemma blank_space t : blank t -> forall c, In c t -> is_space c = true.
Proof.
  intros H c Hc. specialize (H c Hc). unfold is_space. cbn [In] in H.
  repeat (destruct H as [H|H]; [rewrite <- H; reflexivity|]). destruct H.
Qed.
Lemma space_blank c : is_space c = true -> In (nat_of_ascii c) [9; 10; 11; 12; 13; 28; 29; 30; 31; 32].
Proof.
  unfold is_space. intros H. apply orb_true_iff in H as [H|H]; apply andb_true_iff in H as [H1 H2];
    apply Nat.leb_le in H1, H2; cbn [In]; lia.
Qed.
Lemma drop_blank t r : blank t -> drop_while is_space (t ++ r) = drop_while is_space r.
Proof.
  intros H. induction t as [|c t IH]; [reflexivity|]. cbn [app drop_while].
  rewrite (blank_space _ H c) by now left. apply IH. intros d Hd. apply H. now right.
Qed.
Lemma drop_split t : exists sp, blank sp /\ t = sp ++ drop_while is_space t.
Proof.
  induction t as [|c t [sp [Hb E]]].
  - exists []. split; [intros c []|reflexivity].
  - cbn [drop_while]. destruct (is_space c) eqn:Ec.
    + exists (c :: sp). split; [|cbn; now rewrite <- E].
      intros d [<-|Hd]; [now apply space_blank|now apply Hb].
    + exists []. split; [intros d []|reflexivity].
Qed.

Lemma upto_last_none c t : ~ In c t -> upto_last c t = None.
Proof.
  induction t as [|a t IH]; intros H; [reflexivity|]. cbn [upto_last]. rewrite IH by (intros C; apply H; now right).
  destruct (Ascii.eqb_spec a c); [|reflexivity]. subst. destruct H. now left.
Qed.
Lemma upto_last_some c u r : ~ In c r -> upto_last c (u ++ c :: r) = Some u.
Proof.
  intros H. induction u as [|a u IH]; cbn [app upto_last].
  - rewrite (upto_last_none c r H). now rewrite Ascii.eqb_refl.
  - now rewrite IH.
Qed.
Lemma upto_last_inv c t u : upto_last c t = Some u -> exists r, t = u ++ c :: r.
Proof.
  revert u; induction t as [|a t IH]; intros u; cbn [upto_last]; [discriminate|].
  destruct (upto_last c t) as [u'|] eqn:E.
  - intros H; injection H as <-. destruct (IH u' eq_refl) as [r ->]. now exists r.
  - destruct (Ascii.eqb_spec a c); [|discriminate]. intros H; injection H as <-. subst. now exists t.
Qed.

Lemma unit_part_some s1 s2 u rest : blank s1 -> blank s2 -> ~ In "]"%char rest ->
  unit_part (s1 ++ "#"%char :: s2 ++ "["%char :: u ++ "]"%char :: rest) = Some u.
Proof.
  intros H1 H2 Hr. unfold unit_part. rewrite drop_blank by assumption. cbn [drop_while is_space].
  change (is_space "#"%char) with false. cbv iota. rewrite drop_blank by assumption. cbn [drop_while].
  change (is_space "["%char) with false. cbv iota. now apply upto_last_some.
Qed.
Ltac other_char := try discriminate.
Lemma unit_part_inv t u : unit_part t = Some u -> exists s1 s2 rest, blank s1 /\ blank s2 /\
  t = s1 ++ "#"%char :: s2 ++ "["%char :: u ++ "]"%char :: rest.
Proof.
  unfold unit_part. destruct (drop_split t) as [s1 [H1 E1]]. revert E1.
  destruct (drop_while is_space t) as [|a t1]; [discriminate|].
  intros E1 H.
  destruct a as [[] [] [] [] [] [] [] []]; try discriminate H.
  destruct (drop_split t1) as [s2 [H2 E2]]. revert E2 H.
  destruct (drop_while is_space t1) as [|b t2]; [discriminate|]. intros E2 H.
  destruct b as [[] [] [] [] [] [] [] []]; try discriminate H.
  apply upto_last_inv in H as [rest ->]. exists s1, s2, rest. rewrite E1, E2. auto.
Qed.

Lemma name_part_none t : ~ In "'"%char t -> name_part t = None.
Proof.
  induction t as [|a t IH]; intros H; [reflexivity|]. cbn [name_part].
  rewrite IH by (intros C; apply H; now right).
  destruct a as [[] [] [] [] [] [] [] []]; try reflexivity. destruct H. now left.
Qed.
Lemma name_part_some v t u : ~ In "'"%char t -> unit_part t = Some u -> name_part (v ++ txt "'," ++ t) = Some (v, u).
Proof.
  intros Hq Hu. induction v as [|a v IH].
  - change ([] ++ txt "'," ++ t) with ("'"%char :: ","%char :: t).
    assert (E : name_part (","%char :: t) = None).
    { apply name_part_none. intros [C|C]; [discriminate|contradiction]. }
    cbn [name_part] in *. rewrite E, Hu. reflexivity.
  - cbn [app name_part]. now rewrite IH.
Qed.
Lemma name_part_inv t : forall v u, name_part t = Some (v, u) ->
  exists r, t = v ++ txt "'," ++ r /\ unit_part r = Some u.
Proof.
  induction t as [|a t IH]; intros v u H; [discriminate|]. cbn [name_part] in H.
  destruct (name_part t) as [[n u']|].
  - injection H as <- <-. destruct (IH n u' eq_refl) as [r [-> Hr]]. now exists r.
  - destruct a as [[] [] [] [] [] [] [] []]; try discriminate H.
    destruct t as [|b t2]; [discriminate|].
    destruct b as [[] [] [] [] [] [] [] []]; try discriminate H.
    destruct (unit_part t2) as [u'|] eqn:E; [|discriminate]. injection H as <- <-. now exists t2.
Qed.

Lemma match_clean line v u : documents_cleanly line v u -> match_line line = Some (v, u).
Proof.
  intros [sp [s1 [s2 [rest [H0 [H1 [H2 [[Hr Hq] [Hu ->]]]]]]]]]. unfold match_line. rewrite drop_blank by assumption.
  cbn [drop_while]. change (is_space "'"%char) with false. cbv iota.
  apply name_part_some.
  - rewrite !in_app_iff. cbn [In]. rewrite !in_app_iff. cbn [In]. rewrite in_app_iff. cbn [In].
    assert (B : forall s, blank s -> ~ In "'"%char s).
    { intros s Hs C. apply Hs in C. cbn in C. intuition discriminate. }
    intros [C|[C|[C|[C|[C|[C|C]]]]]]; try discriminate; try contradiction; [now apply (B s1)|now apply (B s2)].
  - now apply unit_part_some.
Qed.
Lemma match_plain line v u : match_line line = Some (v, u) -> documents_plainly line v u.
Proof.
  unfold match_line. destruct (drop_split line) as [sp [H0 E]]. revert E.
  destruct (drop_while is_space line) as [|a t]; [discriminate|]. intros E H.
  destruct a as [[] [] [] [] [] [] [] []]; try discriminate H.
  apply name_part_inv in H as [r [-> Hr]]. apply unit_part_inv in Hr as [s1 [s2 [rest [H1 [H2 ->]]]]].
  exists sp, s1, s2, rest. auto.
Qed.

(** ** C103: the table of units *)
Definition meta_step (meta : dict (option text)) (line : text) : dict (option text) :=
  match match_line line with
  | Some (v, u) =>
      if dmem v meta then dset v (Some (if text_eqb u (txt "-") then txt "1" else u)) meta else meta
  | None => meta
  end.
Lemma init_get vars : forall d v, In v vars -> (forall w x, dget w d = Some x -> x = None) ->
  dget v (fold_left (fun d v => dset v (@None text) d) vars d) = Some None.
Proof.
  induction vars as [|a vars IH]; intros d v Hv Hd; [destruct Hv|]. cbn [fold_left].
  assert (Hd' : forall w x, dget w (dset a None d) = Some x -> x = None).
  { intros w x. destruct (text_eqb_spec w a).
    - subst. rewrite dget_dset_same. congruence.
    - rewrite dget_dset_other by assumption. apply Hd. }
  destruct (in_dec (list_eq_dec ascii_dec) v vars) as [i|i]; [now apply IH|].
  destruct Hv as [<-|Hv]; [|contradiction].
  assert (K : forall l e, ~ In a l -> dget a (fold_left (fun d v => dset v (@None text) d) l e) = dget a e).
  { intros l. induction l as [|b l IHl]; intros e Hl; [reflexivity|]. cbn [fold_left]. rewrite IHl by (intros C; apply Hl; now right).
    apply dget_dset_other. intros ->. apply Hl. now left. }
  rewrite K by assumption. apply dget_dset_same.
Qed.

(** What the last matching line of the file says. *)
Fixpoint said (v : text) (lines : list text) (cur : option text) : option text :=
  match lines with
  | [] => cur
  | l :: r => said v r (match match_line l with
                        | Some (w, u) => if text_eqb w v then Some (cf_unit u) else cur
                        | None => cur
                        end)
  end.
Lemma meta_said lines : forall meta v x, dget v meta = Some x ->
  dget v (fold_left meta_step lines meta) = Some (said v lines x).
Proof.
  induction lines as [|l r IH]; intros meta v x Hx; [exact Hx|]. cbn [fold_left said]. apply IH.
  unfold meta_step. destruct (match_line l) as [[w u]|]; [|exact Hx].
  destruct (text_eqb_spec w v) as [->|N].
  - unfold dmem. rewrite Hx. apply dget_dset_same.
  - destruct (dmem w meta); [|exact Hx]. rewrite dget_dset_other by congruence. exact Hx.
Qed.
Lemma parse_said lines vars v : In v vars -> dget v (parse_metadata lines vars) = Some (said v lines None).
Proof.
  intros Hv. unfold parse_metadata. apply (meta_said lines). apply init_get; auto. cbn. discriminate.
Qed.

Lemma said_in v lines : forall cur x, said v lines cur = Some x ->
  cur = Some x \/ exists line u, In line lines /\ documents_plainly line v u /\ x = cf_unit u.
Proof.
  induction lines as [|l r IH]; intros cur x H; [now left|]. cbn [said] in H.
  apply IH in H as [H|[line [u [Hl [Hd Hx]]]]].
  - destruct (match_line l) as [[w u]|] eqn:E; [|now left].
    destruct (text_eqb_spec w v) as [->|N]; [|now left].
    right. exists l, u. split; [now left|]. split; [now apply match_plain|congruence].
  - right. exists line, u. split; [now right|auto].
Qed.
Lemma said_some v lines : forall cur, (exists line u, In line lines /\ documents_cleanly line v u) \/ cur <> None ->
  said v lines cur <> None.
Proof.
  induction lines as [|l r IH]; intros cur H; cbn [said].
  - destruct H as [[line [u [[] _]]]|H]; exact H.
  - apply IH. destruct H as [[line [u [[<-|Hl] Hd]]]|H].
    + right. apply match_clean in Hd. rewrite Hd, text_eqb_refl. discriminate.
    + left. exists line, u. now split.
    + right. destruct (match_line l) as [[w u]|]; [|exact H]. destruct (text_eqb w v); [discriminate|exact H].
Qed.

Lemma c103_parsed : forall lines vars v u, In v vars ->
  (exists line, In line lines /\ documents_cleanly line v u) ->
  (forall line u', In line lines -> documents_plainly line v u' -> u' = u) ->
  dget v (parse_metadata lines vars) = Some (Some (cf_unit u)).
Proof.
  intros lines vars v u Hv [line [Hl Hd]] Hu. rewrite parse_said by assumption. f_equal.
  destruct (said v lines None) as [x|] eqn:E.
  - apply said_in in E as [E|[l' [u' [Hl' [Hd' ->]]]]]; [discriminate|]. now rewrite (Hu l' u' Hl' Hd').
  - exfalso. revert E. apply said_some. left. now exists line, u.
Qed.
Lemma c103_unknown : forall lines vars v, In v vars ->
  (forall line u, In line lines -> ~ documents_plainly line v u) ->
  dget v (parse_metadata lines vars) = Some None.
Proof.
  intros lines vars v Hv Hu. rewrite parse_said by assumption. f_equal.
  destruct (said v lines None) as [x|] eqn:E; [|reflexivity].
  apply said_in in E as [E|[l' [u' [Hl' [Hd' ->]]]]]; [discriminate|]. now destruct (Hu l' u' Hl').
Qed.

Lemma c103_units : forall lines refdate p known dims outvars D f v0 ext ds u,
  initialize lines refdate p known dims outvars = Ok (D, f) -> asked outvars v0 ext -> In v0 known ->
  dget v0 dims = Some ds -> ext <> Some (txt "var") -> u <> [] ->
  (exists line, In line lines /\ documents_cleanly line v0 u) ->
  (forall line u', In line lines -> documents_plainly line v0 u' -> u' = u) ->
  exists v, In v f /\ named v0 ext (vname v) /\ vunits v = Some (statistic_unit ext (cf_unit u)).
Proof.
  intros lines rd p known dims outvars D f v0 ext ds u Hi Ha Hk Hd Hext Hne Hl Hu.
  apply initialize_inv in Hi as [_ ->].
  eexists. split; [|split].
  - apply in_or_app. left. apply in_or_app. right. apply (in_requested known dims (parse_metadata lines (dkeys outvars)) outvars v0 ext ds); auto.
  - cbn [vname]. apply file_name_named.
  - assert (P : dget v0 (parse_metadata lines (dkeys outvars)) = Some (Some (cf_unit u))).
    { apply c103_parsed; auto. destruct Ha as [exts [Ho _]]. unfold dkeys. apply (in_map fst) in Ho. exact Ho. }
    cbn [vunits]. unfold text in *. rewrite P.
    assert (E : statistic_unit ext (cf_unit u) = cf_unit u).
    { destruct ext as [e|]; [|reflexivity]. cbn [statistic_unit].
      destruct (text_eqb_spec e (txt "var")); [congruence|reflexivity]. }
    rewrite E. unfold cf_unit. destruct (text_eqb u (txt "-")); [reflexivity|]. destruct u; [contradiction|reflexivity].
Qed.

(** The text of constants.py. *)
Lemma all_said : (let meta := parse_metadata constants_py (dkeys dimensions) in
  forallb (fun v => match dget v meta with
                    | Some (Some _) => negb (mem v without_unit)
                    | _ => mem v without_unit
                    end) (dkeys dimensions)) = true.
Proof. vm_compute. reflexivity. Qed.
Lemma c103_table : forall vars ds v, declared ds v -> In v vars ->
  (In v without_unit /\ dget v (parse_metadata constants_py vars) = Some None) \/
  (~ In v without_unit /\ exists line u, In line constants_py /\ documents_plainly line v u /\
     dget v (parse_metadata constants_py vars) = Some (Some (cf_unit u))).
Proof.
  intros vars ds v Hd Hv. pose proof all_said as H. cbv zeta in H. rewrite forallb_forall in H.
  assert (Hk : In v (dkeys dimensions)) by (apply dget_In_keys; exists ds; now apply dimensions_complete).
  specialize (H v Hk). cbv beta in H. rewrite (parse_said _ _ v Hk) in H. rewrite (parse_said _ _ v Hv).
  destruct (said v constants_py None) as [x|] eqn:E.
  - right. split; [intros C; apply mem_In in C; now rewrite C in H|].
    apply said_in in E as [E|[line [u [Hl [Hp ->]]]]]; [discriminate|]. exists line, u. auto.
  - left. split; [now apply mem_In|reflexivity].
Qed.

(** ** C105 *)
Lemma float32_exact z : (Z.abs z <= 2 ^ 24)%Z -> float32 z = z.
Proof.
  intros H. unfold float32. destruct (Z.leb_spec (Z.log2 (Z.abs z) - 23) 0) as [L|L]; [reflexivity|].
  assert (E : Z.abs z = (2 ^ 24)%Z).
  { assert (24 <= Z.log2 (Z.abs z))%Z by lia.
    assert (0 < Z.abs z)%Z. { destruct (Z.eq_dec (Z.abs z) 0) as [e|e]; [rewrite e in H0; cbn in H0; lia|lia]. }
    pose proof (Z.log2_spec (Z.abs z) H1) as [P _].
    assert (2 ^ 24 <= 2 ^ Z.log2 (Z.abs z))%Z by (apply Z.pow_le_mono_r; lia). lia. }
  rewrite E. assert (z = 2 ^ 24 \/ z = - 2 ^ 24)%Z as [->| ->] by lia; reflexivity.
Qed.

Lemma half_even_near a b : (0 < b)%Z -> (2 * Z.abs (half_even_div a b * b - a) <= b)%Z.
Proof.
  intros Hb. unfold half_even_div. pose proof (Z.div_mod a b ltac:(lia)) as E. pose proof (Z.mod_pos_bound a b Hb) as M.
  set (q := (a / b)%Z) in *. set (r := (a mod b)%Z) in *. clearbody q r. subst a.
  destruct (Z.compare_spec (2 * r) b).
  - destruct (Z.even q); lia.
  - lia.
  - lia.
Qed.
Lemma float32_near z : (2 ^ 24 * Z.abs (float32 z - z) <= Z.abs z)%Z.
Proof.
  unfold float32. destruct (Z.leb_spec (Z.log2 (Z.abs z) - 23) 0) as [L|L].
  - rewrite Z.sub_diag. cbn [Z.abs]. lia.
  - set (e := (Z.log2 (Z.abs z) - 23)%Z) in *.
    assert (He : (0 < 2 ^ e)%Z) by (apply Z.pow_pos_nonneg; lia).
    pose proof (half_even_near z (2 ^ e) He) as N.
    assert (0 < Z.abs z)%Z.
    { destruct (Z.eq_dec (Z.abs z) 0) as [e0|e0]; [|lia]. subst e. rewrite e0 in L. cbn in L. lia. }
    pose proof (Z.log2_spec (Z.abs z) H) as [P _].
    assert (E : (2 ^ Z.log2 (Z.abs z) = 2 ^ 23 * 2 ^ e)%Z).
    { rewrite <- Z.pow_add_r by lia. f_equal. subst e. lia. }
    rewrite E in P. change (2 ^ 24)%Z with (2 * 2 ^ 23)%Z. nia.
Qed.

(** The axis after appending, for any rounding. *)
Fixpoint rounded (from : Z) (first : bool) (ts : list Z) : list (Z * Z) :=
  match ts with
  | [] => []
  | t :: r => ((if first then 0%Z else float32 from), float32 t) :: rounded t false r
  end.
Lemma run_axis_gen ts : forall a, length (time_bounds a) = length (times a) ->
  fold_left (fun a t => append_time t a) ts a =
  {| times := times a ++ ts;
     time_bounds := time_bounds a ++ rounded (last (times a) 0%Z) (match times a with [] => true | _ => false end) ts |}.
Proof.
  induction ts as [|t ts IH]; intros a Ha; cbn [fold_left rounded].
  - rewrite !app_nil_r. now destruct a.
  - rewrite IH by (cbn; rewrite !app_length; cbn; lia). cbn [append_time times time_bounds].
    f_equal.
    + now rewrite <- app_assoc.
    + rewrite <- app_assoc. cbn [app]. do 2 f_equal.
      * f_equal. rewrite app_length. cbn [length]. replace (length (times a) + 1 - 1) with (length (times a)) by lia.
        destruct (times a) as [|x l] eqn:E; [reflexivity|]. cbn [length].
        f_equal. rewrite app_nth1 by (cbn; lia).
        clear. revert x. induction l as [|y l IHl]; intros x; [reflexivity|].
        change (nth (length l) (y :: l) 0%Z = last (y :: l) 0%Z). apply IHl.
      * rewrite last_last. now destruct (times a).
Qed.
Lemma run_axis_rounded ts : run_axis ts = {| times := ts; time_bounds := rounded 0 true ts |}.
Proof. unfold run_axis. now rewrite run_axis_gen. Qed.

Lemma c105_intervals : forall ts, Forall (fun t => (Z.abs t <= 2 ^ 24)%Z) ts ->
  times (run_axis ts) = ts /\ time_bounds (run_axis ts) = intervals 0 ts.
Proof.
  intros ts H. rewrite run_axis_rounded. split; [reflexivity|]. cbn [time_bounds].
  assert (K : forall b from, (b = true -> from = 0%Z) -> (Z.abs from <= 2 ^ 24)%Z -> rounded from b ts = intervals from ts).
  { induction H as [|t ts Ht _ IH]; intros b from Hb Hf; [reflexivity|]. cbn [rounded intervals]. f_equal.
    - f_equal; [|now apply float32_exact]. destruct b; [now rewrite Hb|now apply float32_exact].
    - apply IH; [discriminate|exact Ht]. }
  apply K; [reflexivity|cbn; lia].
Qed.

Lemma c105_near : forall ts, times (run_axis ts) = ts /\
  Forall2 (fun b i => near (fst b) (fst i) /\ near (snd b) (snd i)) (time_bounds (run_axis ts)) (intervals 0 ts).
Proof.
  intros ts. rewrite run_axis_rounded. split; [reflexivity|]. cbn [time_bounds].
  assert (K : forall b from, (b = true -> from = 0%Z) ->
    Forall2 (fun b i => near (fst b) (fst i) /\ near (snd b) (snd i)) (rounded from b ts) (intervals from ts)).
  { induction ts as [|t ts IH]; intros b from Hb; cbn [rounded intervals]; constructor.
    - cbn [fst snd]. split; [|apply float32_near]. destruct b; [rewrite Hb by reflexivity; unfold near; cbn; lia|apply float32_near].
    - apply IH. discriminate. }
  now apply K.
Qed.

(** ** C102 *)
Section Dump.
  Context {A : Type}.
  Lemma concat_rows n (Hn : 0 < n) : forall fuel (l : list A), length l <= fuel -> concat (rows fuel n l) = l.
  Proof.
    induction fuel as [|f IH]; intros l Hl.
    - destruct l; [reflexivity|cbn in Hl; lia].
    - destruct l as [|a l]; [reflexivity|]. cbn [rows concat]. rewrite IH.
      + apply firstn_skipn.
      + rewrite skipn_length. cbn [length] in *. lia.
  Qed.
  Lemma rows_lengths n (Hn : 0 < n) : forall k fuel (l : list A), length l <= fuel -> length l = k * n ->
    length (rows fuel n l) = k /\ Forall (fun r => length r = n) (rows fuel n l).
  Proof.
    induction k as [|k IH]; intros fuel l Hf Hl.
    - destruct l; [|cbn in Hl; lia]. destruct fuel; split; try reflexivity; constructor.
    - destruct fuel as [|f]; [lia|]. destruct l as [|a l]; [cbn in Hl; lia|]. cbn [rows].
      destruct (IH f (skipn n (a :: l))) as [E F].
      + rewrite skipn_length. cbn [length] in *. lia.
      + rewrite skipn_length, Hl. cbn. lia.
      + split; [cbn [length]; now rewrite E|]. constructor; [|exact F].
        rewrite firstn_length, Hl. cbn. lia.
  Qed.

  Lemma slice_ok (l : list (array A)) i m : nth_error l i = Some m ->
    slice l (Z.of_nat i) = Ok m /\ slice l (Z.of_nat i - Z.of_nat (length l)) = Ok m.
  Proof.
    intros H. assert (i < length l) by (apply nth_error_Some; congruence). unfold slice. split.
    - destruct (Z.ltb_spec (Z.of_nat i) 0); [lia|]. cbn zeta.
      destruct (Z.ltb_spec (Z.of_nat i) 0); [lia|]. destruct (Z.leb_spec (Z.of_nat (length l)) (Z.of_nat i)); [lia|].
      cbn [orb]. now rewrite Nat2Z.id, H.
    - destruct (Z.ltb_spec (Z.of_nat i - Z.of_nat (length l)) 0); [|lia]. cbn zeta.
      replace (Z.of_nat i - Z.of_nat (length l) + Z.of_nat (length l))%Z with (Z.of_nat i) by lia.
      destruct (Z.ltb_spec (Z.of_nat i) 0); [lia|]. destruct (Z.leb_spec (Z.of_nat (length l)) (Z.of_nat i)); [lia|].
      cbn [orb]. now rewrite Nat2Z.id, H.
  Qed.

  Lemma c102_roundtrip : forall (file : dict (list (array A))) var slices i m a n r ix,
    dget var file = Some slices -> nth_error slices i = Some m -> well_shaped m ->
    ashape m = a :: n :: r -> 0 < n -> ix = Z.of_nat i \/ ix = (Z.of_nat i - Z.of_nat (length slices))%Z ->
    exists rs, dump file var ix = Ok rs /\ Forall (fun row => length row = n) rs /\
      length rs = a * fold_right Nat.mul 1 r /\ load_as (ashape m) rs = Ok m.
  Proof.
    intros file var slices i m a n r ix Hg Hi Hw Hs Hn Hix. unfold dump. rewrite Hg.
    destruct (slice_ok slices i m Hi) as [S1 S2].
    assert (E : slice slices ix = Ok m) by (destruct Hix; subst; assumption). rewrite E. cbn [bind].
    unfold dump_rows. rewrite Hs. destruct (Nat.eqb_spec n 0); [lia|].
    eexists. split; [reflexivity|]. unfold well_shaped in Hw.
    assert (L : length (aflat m) = (a * fold_right Nat.mul 1 r) * n) by (rewrite Hw, Hs; cbn [fold_right]; lia).
    destruct (rows_lengths n Hn _ _ (aflat m) (Nat.le_refl _) L) as [R1 R2].
    split; [exact R2|]. split; [exact R1|]. unfold load_as. rewrite (concat_rows n Hn) by lia.
    rewrite <- Hs, Hw, Nat.eqb_refl. now destruct m.
  Qed.

  Lemma c102_other_size : forall (file : dict (list (array A))) var ix rs m sh,
    (exists slices, dget var file = Some slices /\ slice slices ix = Ok m) -> dump file var ix = Ok rs -> well_shaped m ->
    fold_right Nat.mul 1 sh <> fold_right Nat.mul 1 (ashape m) -> load_as sh rs = Raise ValueError.
  Proof.
    intros file var ix rs m sh [slices [Hg Hsl]] Hd Hw Hne. unfold dump in Hd. rewrite Hg, Hsl in Hd. cbn [bind] in Hd.
    unfold dump_rows in Hd. destruct (ashape m) as [|a [|n r]] eqn:Es; try discriminate.
    destruct (Nat.eqb_spec n 0); [discriminate|]. injection Hd as <-.
    unfold load_as. rewrite concat_rows by lia. unfold well_shaped in Hw. rewrite Es in Hw. rewrite Hw.
    destruct (Nat.eqb_spec (fold_right Nat.mul 1 (a :: n :: r)) (fold_right Nat.mul 1 sh)); [congruence|reflexivity].
  Qed.
End Dump.
