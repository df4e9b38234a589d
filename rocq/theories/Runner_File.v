(** The output file: what is written and that calls succeed. *)
From Verif Require Import Base Num Config_Model Config_Proofs State_Model State_Proofs Runner_Model Runner_Spec Runner_Proofs.
Open Scope Q_scope.

Lemma prefix_refl {A} (l : list A) : prefix l l.
Proof. exists []. now rewrite app_nil_r. Qed.
Lemma prefix_trans {A} (a b c : list A) : prefix a b -> prefix b c -> prefix a c.
Proof. intros [t ->] [u ->]. exists (t ++ u). now rewrite app_assoc. Qed.
Lemma extends_refl f : extends f f.
Proof. split; [apply prefix_refl|]. split; [apply prefix_refl|]. intros k l H. exists l. split; [exact H|apply prefix_refl]. Qed.
Lemma extends_trans a b c : extends a b -> extends b c -> extends a c.
Proof.
  intros [A1 [A2 A3]] [B1 [B2 B3]]. split; [exact (prefix_trans _ _ _ A1 B1)|]. split; [exact (prefix_trans _ _ _ A2 B2)|].
  intros k l H. destruct (A3 k l H) as [l1 [H1 P1]]. destruct (B3 k l1 H1) as [l2 [H2 P2]]. exists l2. split; [exact H2|].
  exact (prefix_trans _ _ _ P1 P2).
Qed.

(** ** put_all *)
Lemma put_all_extends i vs : forall d d', put_all i vs d = Ok d' -> forall k l, dget k d = Some l ->
  exists l', dget k d' = Some l' /\ prefix l l'.
Proof.
  induction vs as [|[k0 v0] vs IH]; intros d d' H k l Hl; cbn [put_all] in H.
  - apply Ok_inj in H. subst d'. exists l. split; [exact Hl|apply prefix_refl].
  - destruct (dget k0 d) as [l0|] eqn:E; [|discriminate]. destruct (text_eqb_spec k k0) as [->|Hne].
    + rewrite Hl in E. injection E as ->. destruct (IH _ _ H k0 (put i v0 l0)) as [l' [H1 H2]]; [apply dget_dset_same|].
      exists l'. split; [exact H1|]. apply prefix_trans with (put i v0 l0); [|exact H2]. unfold put. eexists. reflexivity.
    + apply (IH _ _ H). rewrite dget_dset_other by exact Hne. exact Hl.
Qed.
Lemma put_all_dkeys i vs : forall d d', put_all i vs d = Ok d' -> dkeys d' = dkeys d.
Proof.
  induction vs as [|[k0 v0] vs IH]; intros d d' H; cbn [put_all] in H; [apply Ok_inj in H; now subst d'|].
  destruct (dget k0 d) as [l0|] eqn:E; [|discriminate]. rewrite (IH _ _ H). apply dset_keys_known. apply dget_In_keys. now exists l0.
Qed.
Lemma put_all_other i vs : forall d d' k, put_all i vs d = Ok d' -> ~ In k (dkeys vs) -> dget k d' = dget k d.
Proof.
  unfold dkeys. induction vs as [|[k0 v0] vs IH]; intros d d' k H Hk; cbn [put_all] in H; [apply Ok_inj in H; now subst d'|].
  cbn [map fst In] in Hk. destruct (dget k0 d) as [l0|] eqn:E; [|discriminate]. rewrite (IH _ _ k H) by tauto.
  apply dget_dset_other. intros ->. tauto.
Qed.
Lemma put_all_get i vs : NoDup (dkeys vs) -> forall d d', put_all i vs d = Ok d' -> forall k v, dget k vs = Some v ->
  exists l, dget k d = Some l /\ dget k d' = Some (put i v l).
Proof.
  unfold dkeys. induction vs as [|[k0 v0] vs IH]; intros Hn d d' H k v Hv; [discriminate Hv|].
  cbn [put_all] in H. cbn [map fst] in Hn. inversion Hn as [|? ? Hk0 Hn']; subst.
  destruct (dget k0 d) as [l0|] eqn:E; [|discriminate]. cbn [dget] in Hv. destruct (text_eqb_spec k k0) as [->|Hne].
  - injection Hv as ->. exists l0. split; [exact E|]. rewrite (put_all_other _ _ _ _ k0 H) by exact Hk0. apply dget_dset_same.
  - destruct (IH Hn' _ _ H k v Hv) as [l [H1 H2]]. exists l. rewrite dget_dset_other in H1 by exact Hne. now split.
Qed.
Lemma put_all_total i vs : forall d, (forall k, In k (dkeys vs) -> In k (dkeys d)) -> exists d', put_all i vs d = Ok d'.
Proof.
  unfold dkeys at 1. induction vs as [|[k0 v0] vs IH]; intros d H; cbn [put_all]; [now exists d|].
  destruct (dget k0 d) as [l0|] eqn:E.
  - apply IH. intros k Hk. apply dkeys_dset_mem. apply H. now right.
  - exfalso. apply dget_None_keys in E. apply E. apply H. now left.
Qed.

(** ** Well-formed files *)
Record wff (f : ncfile) : Prop := {
  wff_bounds : contiguous 0 (nc_time f) (nc_bounds f);
  wff_len : forall k l, dget k (nc_vars f) = Some l -> (length l <= length (nc_time f))%nat }.

Lemma contiguous_snoc ts : forall from bs t, contiguous from ts bs ->
  contiguous from (ts ++ [t]) (bs ++ [(match length ts with O => from | S j => nth j (ts ++ [t]) 0 end, t)]).
Proof.
  induction ts as [|x ts IH]; intros from bs t H.
  - destruct bs; [|destruct H]. cbn. repeat split.
  - destruct bs as [|[lo hi] bs]; [destruct H|]. cbn [contiguous] in H. destruct H as [-> [-> H]].
    cbn [app contiguous length nth]. split; [reflexivity|]. split; [reflexivity|].
    specialize (IH x bs t H). destruct ts as [|y ts]; cbn [length app nth] in *; exact IH.
Qed.

Lemma put_length i v l : (length l <= i)%nat -> length (put i v l) = S i.
Proof. intros H. unfold put. rewrite !app_length, repeat_length. cbn [length]. lia. Qed.
Lemma put_nth i v l : (length l <= i)%nat -> nth_error (put i v l) i = Some v.
Proof.
  intros H. unfold put. rewrite nth_error_app2 by exact H. rewrite nth_error_app2; rewrite repeat_length; [|lia].
  now rewrite Nat.sub_diag.
Qed.

Lemma append_wff time vs f f' : NoDup (dkeys vs) -> wff f -> append time vs f = Ok f' ->
  wff f' /\ extends f f' /\ nc_time f' = nc_time f ++ [time] /\ dkeys (nc_vars f') = dkeys (nc_vars f) /\
  forall k v, dget k vs = Some v -> exists l, dget k (nc_vars f') = Some l /\ nth_error l (length (nc_time f)) = Some v.
Proof.
  intros Hn [W1 W2]. unfold append. destruct (put_all _ vs (nc_vars f)) as [d|] eqn:E; [|discriminate]. cbn [bind].
  intros H. apply Ok_inj in H. subst f'. cbn [nc_time nc_bounds nc_vars]. split; [|split; [|split; [reflexivity|split]]].
  - constructor; cbn [nc_time nc_bounds nc_vars].
    + now apply contiguous_snoc.
    + intros k l Hl. rewrite app_length. cbn [length].
      destruct (dget k vs) as [v|] eqn:Ev.
      * destruct (put_all_get _ _ Hn _ _ E k v Ev) as [l0 [H1 H2]]. rewrite H2 in Hl. injection Hl as <-.
        rewrite put_length by (apply (W2 k); exact H1). lia.
      * rewrite (put_all_other _ _ _ _ k E) in Hl by (now apply dget_None_keys). specialize (W2 k l Hl). lia.
  - split; [eexists; reflexivity|]. split; [eexists; reflexivity|]. exact (put_all_extends _ _ _ _ E).
  - exact (put_all_dkeys _ _ _ _ E).
  - intros k v Hv. destruct (put_all_get _ _ Hn _ _ E k v Hv) as [l [H1 H2]]. exists (put (length (nc_time f)) v l).
    split; [exact H2|]. apply put_nth. exact (W2 k l H1).
Qed.

(** ** Names *)
Lemma split_unique (k k' x x' : text) : ~ In "_"%char k -> ~ In "_"%char k' -> k ++ "_"%char :: x = k' ++ "_"%char :: x' -> k = k' /\ x = x'.
Proof.
  revert k'. induction k as [|c k IH]; intros [|c' k'] H H' E; cbn [app] in E.
  - injection E as ->. split; reflexivity.
  - injection E as <- _. exfalso. apply H'. now left.
  - injection E as -> _. exfalso. apply H. now left.
  - injection E as <- E. destruct (IH k') as [-> ->]; [intros Hi; apply H; now right|intros Hi; apply H'; now right|exact E|].
    split; reflexivity.
Qed.
Lemma out_name_inj k k' e e' : plain k -> plain k' -> out_name k e = out_name k' e' -> k = k' /\ e = e'.
Proof.
  intros [P _] [P' _]. destruct e as [x|], e' as [x'|]; cbn [out_name]; intros E.
  - change (txt "_" ++ x) with ("_"%char :: x) in E. change (txt "_" ++ x') with ("_"%char :: x') in E.
    destruct (split_unique k k' x x' P P' E) as [-> ->]. split; reflexivity.
  - exfalso. apply P'. rewrite <- E. apply in_or_app. right. now left.
  - exfalso. apply P. rewrite E. apply in_or_app. right. now left.
  - split; [exact E|reflexivity].
Qed.

(** ** collect *)
Lemma value_of_sbc r r' k e v : same_but_clear r r' -> value_of r' k e v -> value_of r k e v.
Proof. intros [-> | ->]; destruct e; exact (fun H => H). Qed.

Lemma dset_nodup {V} (k : text) (v : V) d : NoDup (dkeys d) -> NoDup (dkeys (dset k v d)).
Proof.
  intros H. destruct (dmem_keys k d) as [Hi|Hi].
  - now rewrite dset_keys_known.
  - rewrite dset_append by exact Hi. unfold dkeys in *. rewrite map_app. cbn [map fst].
    apply (NoDup_Add (a := k) (l := map fst d ++ [])); [apply Add_app|]. rewrite app_nil_r. now split.
Qed.

Lemma collect_exts_spec k exts : plain k -> forall r d dr, collect_exts k exts r d = Ok dr ->
  (forall e, In e exts -> exists v, value_of r k e v /\ dget (out_name k e) (fst dr) = Some v) /\
  (forall x, (forall e, In e exts -> x <> out_name k e) -> dget x (fst dr) = dget x d) /\
  (NoDup (dkeys d) -> NoDup (dkeys (fst dr))).
Proof.
  intros Hp. induction exts as [|e exts IH]; intros r d dr H; cbn [collect_exts] in H.
  - apply Ok_inj in H. subst dr. cbn [fst]. split; [intros e []|]. split; [reflexivity|tauto].
  - assert (G : exists v r1, value_of r k e v /\ same_but_clear r r1 /\ collect_exts k exts r1 (dset (out_name k e) v d) = Ok dr).
    { destruct e as [x|].
      - destruct (get_statistic r k x) as [v|] eqn:E; [|discriminate]. cbn [bind] in H. exists v, r. split; [exact E|].
        split; [now left|exact H].
      - destruct (get k false r) as [vr|] eqn:E; [|discriminate]. cbn [bind] in H.
        destruct (get_plain _ _ _ _ Hp E) as [Es Ev]. rewrite Es in H. unfold base_get in Ev.
        destruct (State_Model.get_var Qdiv (grids r) k) as [[q|]|] eqn:Eb; cbn [bind] in Ev; try discriminate;
          apply Ok_inj in Ev; rewrite <- Ev in H; [|discriminate].
        exists (Num q), (set_clear false r). split; [exists q; split; [exact Eb|reflexivity]|]. split; [now right|exact H]. }
    destruct G as [v [r1 [Hv [Hs Hc]]]]. apply IH in Hc. destruct Hc as [C1 [C2 C3]]. split; [|split].
    + intros e' [->|He'].
      * destruct (in_dec (fun a b : option text => ltac:(decide equality; apply list_eq_dec, Ascii.ascii_dec)) e' exts) as [Hi|Hi].
        { destruct (C1 e' Hi) as [v' [V1 V2]]. exists v'. split; [exact (value_of_sbc _ _ _ _ _ Hs V1)|exact V2]. }
        { exists v. split; [exact Hv|]. rewrite C2; [apply dget_dset_same|]. intros e2 He2 E. apply Hi.
          destruct (out_name_inj k k e' e2 Hp Hp E) as [_ ->]. exact He2. }
      * destruct (C1 e' He') as [v' [V1 V2]]. exists v'. split; [exact (value_of_sbc _ _ _ _ _ Hs V1)|exact V2].
    + intros x Hx. rewrite C2; [|intros e2 He2; apply Hx; now right]. apply dget_dset_other. apply Hx. now left.
    + intros Hd. apply C3. now apply dset_nodup.
Qed.

Lemma collect_spec ovs : (forall k exts, In (k, exts) ovs -> plain k) -> NoDup (dkeys ovs) ->
  forall r d dr, collect ovs r d = Ok dr ->
  (forall k exts e, In (k, exts) ovs -> In e exts -> exists v, value_of r k e v /\ dget (out_name k e) (fst dr) = Some v) /\
  (forall x, (forall k exts e, In (k, exts) ovs -> In e exts -> x <> out_name k e) -> dget x (fst dr) = dget x d) /\
  (NoDup (dkeys d) -> NoDup (dkeys (fst dr))).
Proof.
  unfold dkeys at 1. induction ovs as [|[k0 e0] ovs IH]; intros Hp Hn r d dr H; cbn [collect] in H.
  - apply Ok_inj in H. subst dr. split; [intros k exts e []|]. split; [reflexivity|tauto].
  - cbn [map fst] in Hn. inversion Hn as [|? ? Hk0 Hn']; subst.
    destruct (collect_exts k0 e0 r d) as [dr1|] eqn:E; [|discriminate]. cbn [bind] in H.
    assert (Hp0 : plain k0) by (apply (Hp k0 e0); now left).
    pose proof (collect_exts_ok _ _ _ _ _ E) as Hs.
    apply collect_exts_spec in E; [|exact Hp0]. destruct E as [E1 [E2 E3]].
    apply IH in H; [|intros k exts Hi; apply (Hp k exts); now right|exact Hn']. destruct H as [C1 [C2 C3]]. split; [|split].
    + intros k exts e [Hi|Hi] He.
      * injection Hi as <- <-. destruct (E1 e He) as [v [V1 V2]]. exists v. split; [exact V1|]. rewrite C2; [exact V2|].
        intros k' exts' e' Hi' He' Eq. destruct (out_name_inj k0 k' e e') as [<- _]; [exact Hp0|apply (Hp k' exts'); now right|exact Eq|].
        apply Hk0. apply in_map_iff. now exists (k0, exts').
      * destruct (C1 k exts e Hi He) as [v [V1 V2]]. exists v. split; [exact (value_of_sbc _ _ _ _ _ Hs V1)|exact V2].
    + intros x Hx. rewrite C2 by (intros k exts e Hi He; apply (Hx k exts); [now right|exact He]).
      apply E2. intros e He. apply (Hx k0 e0); [now left|exact He].
    + intros Hd. apply C3, E3, Hd.
Qed.

Lemma write_output_file c r r' : (forall k exts, In (k, exts) (outvars c) -> plain k) -> NoDup (dkeys (outvars c)) ->
  wff (file r) -> write_output c r = Ok r' ->
  wff (file r') /\ extends (file r) (file r') /\ dkeys (nc_vars (file r')) = dkeys (nc_vars (file r)) /\
  (due c r = true -> forall k exts e, In (k, exts) (outvars c) -> In e exts -> exists v l,
     value_of r k e v /\ dget (out_name k e) (nc_vars (file r')) = Some l /\ nth_error l (length (nc_time (file r))) = Some v).
Proof.
  intros Hp Hn Hw. unfold write_output. destruct (due c r) eqn:Ed.
  2:{ intros H. apply Ok_inj in H. subst r'. split; [exact Hw|]. split; [apply extends_refl|]. split; [reflexivity|discriminate]. }
  destruct (collect (outvars c) r []) as [dr|] eqn:Ec; [|discriminate]. cbn [bind].
  pose proof (collect_ok _ _ _ _ Ec) as Hs. apply collect_spec in Ec; [|exact Hp|exact Hn]. destruct Ec as [C1 [_ C3]].
  assert (Ef : file (snd dr) = file r) by (destruct Hs as [-> | ->]; reflexivity). rewrite Ef.
  destruct (append (rt (snd dr)) (fst dr) (file r)) as [f|] eqn:Ea; [|discriminate]. cbn [bind].
  match goal with |- context [output_clear c ?x] => destruct (output_clear c x) as [r2|] eqn:Eo; [|discriminate] end.
  cbn [bind]. intros H. apply Ok_inj in H. subst r'. apply output_clear_ok in Eo.
  cbn [grids rt rdt tout trestart n clear o file] in *. destruct Eo as [_ [_ [_ [_ [_ [_ [_ [-> _]]]]]]]].
  apply append_wff in Ea; [|apply C3; constructor|exact Hw]. destruct Ea as [A1 [A2 [A3 [A4 A5]]]].
  split; [exact A1|]. split; [exact A2|]. split; [exact A4|]. intros _ k exts e Hi He.
  destruct (C1 k exts e Hi He) as [v [V1 V2]]. destruct (A5 _ _ V2) as [l [L1 L2]]. exists v, l. repeat split; assumption.
Qed.

Lemma output_write_file c r r' : output_write c r = Ok r' -> exists r1, write_output c r = Ok r1 /\ file r' = file r1.
Proof.
  unfold output_write. destruct (write_output c r) as [r1|]; [|discriminate]. cbn [bind]. unfold write_restart.
  intros H. exists r1. split; [reflexivity|]. destruct (restart c) as [q|]; [|apply Ok_inj in H; now subst r'].
  destruct (negb (Qeq_bool q 0) && Qle_bool q (rt r1 - trestart r1)); [discriminate|apply Ok_inj in H; now subst r'].
Qed.

Lemma calls_file c xs : (forall k exts, In (k, exts) (outvars c) -> plain k) -> NoDup (dkeys (outvars c)) ->
  forall r r', wff (file r) -> do_calls c xs r = Ok r' -> wff (file r') /\ extends (file r) (file r').
Proof.
  intros Hp Hn. induction xs as [|x xs IH]; intros r r' Hw H; cbn [do_calls] in H.
  - apply Ok_inj in H. subst r'. split; [exact Hw|apply extends_refl].
  - destruct (do_call c x r) as [r1|] eqn:E; [|discriminate]. cbn [bind] in H.
    assert (G : wff (file r1) /\ extends (file r) (file r1)).
    { destruct x as [a|var b|]; cbn [do_call] in E.
      - apply update_ok in E; [|exact Hp|exact Hn]. destruct E as [b [_ [_ [_ [_ [_ [-> _]]]]]]]. split; [exact Hw|apply extends_refl].
      - destruct (get var b r) as [vr|] eqn:Eg; [|discriminate]. cbn [bind] in E. apply Ok_inj in E. apply get_snd in Eg.
        subst r1. rewrite Eg. split; [exact Hw|apply extends_refl].
      - apply output_write_file in E. destruct E as [r2 [E ->]]. apply write_output_file in E; [|exact Hp|exact Hn|exact Hw].
        destruct E as [E1 [E2 _]]. now split. }
    destruct G as [G1 G2]. destruct (IH r1 r' G1 H) as [I1 I2]. split; [exact I1|]. exact (extends_trans _ _ _ G2 I2).
Qed.

Lemma created_vars_empty m ovs : forall k l, dget k (created_vars m ovs) = Some l -> l = [].
Proof.
  unfold created_vars.
  assert (G : forall (ovs : dict (list (option text))) d, (forall k l, dget k d = Some l -> l = @nil val) -> forall k l,
     dget k (fold_left (fun d ke => if dmem (fst ke) (vals (s m)) then
       fold_left (fun d e => dset (match e with None => fst ke | Some x => fst ke ++ "_"%char :: x end) [] d) (snd ke) d else d) ovs d)
     = Some l -> l = []).
  { clear ovs. induction ovs as [|[k0 exts] ovs IH]; intros d Hd; [exact Hd|]. cbn [fold_left fst snd]. apply IH.
    destruct (dmem k0 (vals (s m))); [|exact Hd]. revert d Hd. induction exts as [|e exts IHe]; intros d Hd; [exact Hd|].
    cbn [fold_left]. apply IHe. intros k l. set (x := match e with None => k0 | Some x => k0 ++ "_"%char :: x end).
    destruct (text_eqb_spec k x) as [->|Hne].
    - rewrite dget_dset_same. intros H. now injection H.
    - rewrite dget_dset_other by exact Hne. apply Hd. }
  apply G. intros k l H. discriminate H.
Qed.

Lemma init_file c tstart m r : initialize c tstart m = Ok r -> wff (file r) /\ nc_time (file r) = [].
Proof.
  intros H. apply output_clear_ok in H. cbn [grids rt rdt tout trestart n clear o file] in H.
  destruct H as [_ [_ [_ [_ [_ [_ [_ [-> _]]]]]]]]. split; [|reflexivity]. constructor; cbn [nc_time nc_bounds nc_vars contiguous].
  - exact I.
  - intros k l Hl. apply created_vars_empty in Hl. now subst l.
Qed.

(** Bounds of a run, and what one output adds. *)
Lemma file_history c tstart m xs ys r0 r r' :
  (forall k exts, In (k, exts) (outvars c) -> plain k) -> NoDup (dkeys (outvars c)) ->
  initialize c tstart m = Ok r0 -> do_calls c xs r0 = Ok r -> do_calls c ys r = Ok r' ->
  contiguous 0 (nc_time (file r')) (nc_bounds (file r')) /\ extends (file r) (file r').
Proof.
  intros Hp Hn Hi Hr Hr'. apply init_file in Hi. destruct Hi as [Hi _].
  destruct (calls_file c xs Hp Hn _ _ Hi Hr) as [W _]. destruct (calls_file c ys Hp Hn _ _ W Hr') as [W' X].
  split; [exact (wff_bounds _ W')|exact X].
Qed.
Lemma slice_written c tstart m xs r0 r r' :
  (forall k exts, In (k, exts) (outvars c) -> plain k) -> NoDup (dkeys (outvars c)) ->
  initialize c tstart m = Ok r0 -> do_calls c xs r0 = Ok r -> output_write c r = Ok r' ->
  nc_time (file r') = nc_time (file r) ++ [rt r] ->
  forall k exts e, In (k, exts) (outvars c) -> In e exts -> exists v l,
  value_of r k e v /\ dget (out_name k e) (nc_vars (file r')) = Some l /\ nth_error l (length (nc_time (file r))) = Some v.
Proof.
  intros Hp Hn Hi Hr Hw Ht. apply init_file in Hi. destruct Hi as [Hi _].
  destruct (calls_file c xs Hp Hn _ _ Hi Hr) as [W _]. pose proof (output_write_ok _ _ _ Hw) as [_ [_ [_ [G _]]]].
  apply output_write_file in Hw. destruct Hw as [r1 [Hw Ef]].
  pose proof (write_output_file c r r1 Hp Hn W Hw) as [_ [_ [_ X]]]. rewrite Ef. apply X.
  destruct (due c r) eqn:Ed; [reflexivity|]. exfalso. destruct (G eq_refl) as [_ [_ [_ [_ E]]]]. rewrite E in Ht.
  apply (f_equal (@length Q)) in Ht. rewrite app_length in Ht. cbn in Ht. lia.
Qed.

(** ** Calls succeed *)
Record alive (c : config) (r : runner) : Prop := {
  al_sup : supports c (grids r);
  al_o : forall k, In k (dkeys (outvars c)) -> exists a, dget k (o r) = Some a;
  al_clear : clear r <> None;
  al_file : forall k exts e, In (k, exts) (outvars c) -> In e exts -> In (out_name k e) (dkeys (nc_vars (file r)));
  al_wff : wff (file r) }.

Lemma reports_base r k : (exists q, reports (grids r) k q) -> exists q, base_get r k = Ok (Num q).
Proof. intros [q H]. exists q. unfold base_get. unfold reports in H. rewrite H. reflexivity. Qed.

Lemma get_statistic_total r k e a : dget k (o r) = Some a -> exists v, get_statistic r k e = Ok v.
Proof.
  intros H. unfold get_statistic. rewrite H. cbn [bind].
  repeat match goal with |- context [if ?b then _ else _] => destruct b end; eexists; reflexivity.
Qed.
Lemma collect_exts_total k exts : plain k -> forall r d, (exists q, base_get r k = Ok (Num q)) -> (exists a, dget k (o r) = Some a) ->
  exists dr, collect_exts k exts r d = Ok dr.
Proof.
  intros Hp. induction exts as [|e exts IH]; intros r d [q Hq] [a Ha]; cbn [collect_exts]; [eexists; reflexivity|].
  destruct e as [x|].
  - destruct (get_statistic_total r k x a Ha) as [v ->]. cbn [bind]. apply IH; [now exists q|now exists a].
  - unfold get. rewrite lookup_plain, base_get_set_clear, Hq by exact Hp. cbn [bind fst snd].
    apply IH; [now exists q|now exists a].
Qed.
Lemma collect_total ovs : forall r d, (forall k exts, In (k, exts) ovs -> plain k /\ (exists q, base_get r k = Ok (Num q)) /\
  exists a, dget k (o r) = Some a) -> exists dr, collect ovs r d = Ok dr.
Proof.
  induction ovs as [|[k exts] ovs IH]; intros r d H; cbn [collect]; [eexists; reflexivity|].
  destruct (H k exts) as [Hp [Hq Ha]]; [now left|]. destruct (collect_exts_total k exts Hp r d Hq Ha) as [dr E]. rewrite E. cbn [bind].
  apply IH. intros k' exts' Hi. destruct (H k' exts') as [Hp' [Hq' Ha']]; [now right|].
  apply collect_exts_ok in E. destruct E as [-> | ->]; (split; [exact Hp'|split; assumption]).
Qed.

Lemma in_dkeys {V} k (v : V) d : In (k, v) d -> In k (dkeys d).
Proof. intros H. apply in_map_iff. now exists (k, v). Qed.
Lemma dkeys_in {V} k (d : dict V) : In k (dkeys d) -> exists v, In (k, v) d.
Proof. intros H. apply in_map_iff in H. destruct H as [[k' v] [E H]]. cbn in E. subst k'. now exists v. Qed.

Lemma supports_keys c m : supports c m -> forall k, In k (dkeys (outvars c)) -> In k (dkeys (vals (s m))).
Proof. intros H k Hk. apply dkeys_in in Hk. destruct Hk as [v Hk]. exact (proj1 (proj2 (H k v Hk))). Qed.

Lemma output_clear_total c r : supports c (grids r) -> exists r', output_clear c r = Ok r'.
Proof.
  intros H. unfold output_clear. destruct (clear_all_total (dkeys (outvars c)) r (supports_keys c _ H)) as [r' ->].
  cbn [bind]. eexists. reflexivity.
Qed.


Lemma update_clear c a r r' : (forall k exts, In (k, exts) (outvars c) -> plain k) -> NoDup (dkeys (outvars c)) ->
  update c a r = Ok r' -> clear r' <> None.
Proof.
  intros Hp Hn. unfold update. destruct (clear r) as [b|] eqn:Eb; [|discriminate].
  assert (G : forall r1, clear r1 <> None -> output_update c (apply_after a r1) = Ok r' -> clear r' <> None).
  { intros r1 H1. unfold output_update. destruct (update_all (outvars c) (apply_after a r1)) as [r2|] eqn:Eu; [|discriminate].
    cbn [bind]. intros H. apply Ok_inj in H. subst r'. apply update_all_ok in Eu; [|exact Hp|exact Hn].
    destruct Eu as [_ [_ [_ [_ [_ [_ [_ [H7 [H8 _]]]]]]]]]. cbn [set_n clear].
    destruct (outvars c) as [|kv l]; [rewrite H8 by reflexivity; exact H1|rewrite H7; discriminate]. }
  destruct (b || Qltb (rdt r) (-1)).
  - destruct (output_clear c r) as [r1|]; [|discriminate]. cbn [bind]. apply G. discriminate.
  - cbn [bind]. apply G. rewrite Eb. discriminate.
Qed.

Lemma sbc_o r r' : same_but_clear r r' -> o r' = o r /\ grids r' = grids r /\ file r' = file r /\ (clear r <> None -> clear r' <> None).
Proof. intros [-> | ->]; cbn; repeat split; try tauto. intros _. discriminate. Qed.

Lemma collect_keys c r dr : (forall k exts, In (k, exts) (outvars c) -> plain k) -> NoDup (dkeys (outvars c)) ->
  collect (outvars c) r [] = Ok dr -> forall x, In x (dkeys (fst dr)) ->
  exists k exts e, In (k, exts) (outvars c) /\ In e exts /\ x = out_name k e.
Proof.
  intros Hp Hn H x Hx. apply collect_spec in H; [|exact Hp|exact Hn]. destruct H as [_ [H _]].
  assert (D : forall (l : dict (list (option text))), (exists k exts e, In (k, exts) l /\ In e exts /\ x = out_name k e) \/
    (forall k exts e, In (k, exts) l -> In e exts -> x <> out_name k e)).
  { induction l as [|[k0 e0] l IH]; [right; intros k exts e []|].
    assert (De : (exists e, In e e0 /\ x = out_name k0 e) \/ forall e, In e e0 -> x <> out_name k0 e).
    { clear. induction e0 as [|e e0 IH]; [right; intros e []|].
      destruct (list_eq_dec Ascii.ascii_dec x (out_name k0 e)) as [Ex|Ex]; [left; exists e; split; [now left|exact Ex]|].
      destruct IH as [[e' [I1 I2]]|IH]; [left; exists e'; split; [now right|exact I2]|].
      right. intros e' [<-|He']; [exact Ex|now apply IH]. }
    destruct De as [[e [E1 E2]]|De]; [left; exists k0, e0, e; split; [now left|now split]|].
    destruct IH as [[k [exts [e [I1 I2]]]]|IH]; [left; exists k, exts, e; split; [now right|exact I2]|].
    right. intros k exts e [Hi|Hi]; [injection Hi as <- <-; apply De|now apply (IH k exts)]. }
  destruct (D (outvars c)) as [Y|N]; [exact Y|]. specialize (H x N). apply dget_In_keys in Hx. destruct Hx as [v Hv]. rewrite Hv in H. discriminate H.
Qed.

Lemma call_alive c x r : NoDup (dkeys (outvars c)) -> restart c = None -> alive c r -> sane c x ->
  exists r', do_call c x r = Ok r' /\ alive c r'.
Proof.
  intros Hn Hres [A1 A2 A3 A4 A5] Hx.
  assert (Hp : forall k exts, In (k, exts) (outvars c) -> plain k) by (intros k exts Hi; exact (proj1 (A1 k exts Hi))).
  destruct x as [a|var b|]; cbn [do_call sane] in *.
  - assert (T : exists r', update c a r = Ok r').
    { unfold update. destruct (clear r) as [b|]; [|contradiction].
      assert (G : forall r1, (forall k, In k (dkeys (outvars c)) -> exists a, dget k (o r1) = Some a) ->
        exists r', output_update c (apply_after a r1) = Ok r').
      { intros r1 Ho. unfold output_update. destruct (update_all_total (outvars c) (apply_after a r1)) as [r' ->].
        - intros k exts Hi. destruct (Hx k exts Hi) as [H1 [H2 H3]]. split; [exact H1|]. split.
          + apply reports_base. exact H3.
          + apply Ho. exact (in_dkeys _ _ _ Hi).
        - cbn [bind]. eexists. reflexivity. }
      destruct (b || Qltb (rdt r) (-1)).
      - destruct (output_clear_total c r A1) as [r1 E]. rewrite E. cbn [bind]. apply G. intros k Hk.
        apply output_clear_ok in E. destruct E as [_ [_ [_ [_ [_ [_ [_ [_ E]]]]]]]]. exists fresh_acc. now apply E.
      - cbn [bind]. apply G. exact A2. }
    destruct T as [r' T]. exists r'. split; [exact T|]. pose proof (update_clear c a r r' Hp Hn T) as Hc.
    apply update_ok in T; [|exact Hp|exact Hn].
    destruct T as [b [Hb [H1 [H2 [H3 [H4 [H5 [H6 [H7 H8]]]]]]]]]. constructor.
    + now rewrite H1.
    + intros k Hk. apply dkeys_in in Hk. destruct Hk as [exts Hk]. destruct (H8 k exts Hk) as [v [a' [_ [_ E]]]]. eexists. exact E.
    + exact Hc.
    + rewrite H5. exact A4.
    + now rewrite H5.
  - destruct Hx as [Hv [Hct Hcu]]. unfold get. rewrite lookup_plain, base_get_set_clear by exact Hv.
    assert (T : exists v, base_get r var = Ok v).
    { unfold base_get, State_Model.get_var. destruct (dget var (vals (s (grids r)))); [|eexists; reflexivity].
      destruct (mem_spec var [txt "Ct"; txt "Cu"]) as [Hm|_]; [|eexists; reflexivity].
      exfalso. destruct Hm as [<-|[<-|[]]]; contradiction. }
    destruct T as [v ->]. cbn [bind snd]. eexists. split; [reflexivity|]. constructor; cbn [set_clear grids o clear file]; try assumption.
    discriminate.
  - assert (T : exists r', write_output c r = Ok r').
    { unfold write_output. destruct (due c r); [|eexists; reflexivity].
      destruct (collect_total (outvars c) r []) as [dr E].
      { intros k exts Hi. split; [exact (Hp k exts Hi)|]. split; [apply reports_base; exact (proj2 (proj2 (A1 k exts Hi)))|].
        apply A2. exact (in_dkeys _ _ _ Hi). }
      rewrite E. cbn [bind]. pose proof (collect_keys c r dr Hp Hn E) as K. apply collect_ok in E. apply sbc_o in E.
      destruct E as [E1 [E2 [E3 E4]]]. rewrite E3. unfold append.
      destruct (put_all_total (length (nc_time (file r))) (fst dr) (nc_vars (file r))) as [d' ->].
      { intros k Hk. apply K in Hk. destruct Hk as [k0 [exts [e [K1 [K2 ->]]]]]. exact (A4 k0 exts e K1 K2). }
      cbn [bind].
      match goal with |- context [output_clear c ?y] => destruct (output_clear_total c y) as [r2 ->] end.
      { cbn [grids]. now rewrite E2. }
      cbn [bind]. eexists. reflexivity. }
    destruct T as [r' T]. unfold output_write, write_restart. rewrite T, Hres. cbn [bind]. exists r'. split; [reflexivity|].
    pose proof (write_output_file c r r' Hp Hn A5 T) as [F1 [_ [F2 _]]]. apply write_output_ok in T.
    destruct T as [T1 [T2 [T3 [T4 T5]]]]. destruct (due c r).
    + destruct (T5 eq_refl) as [_ [_ [_ [U1 U2]]]]. constructor.
      * now rewrite T1.
      * intros k Hk. exists fresh_acc. now apply U1.
      * destruct U2 as [-> | ->]; [exact A3|discriminate].
      * intros k exts e Hi He. rewrite F2. now apply (A4 k exts).
      * exact F1.
    + rewrite (T4 eq_refl). constructor; assumption.
Qed.

Lemma calls_alive c xs : NoDup (dkeys (outvars c)) -> restart c = None -> forall r, alive c r -> Forall (sane c) xs ->
  exists r', do_calls c xs r = Ok r'.
Proof.
  intros Hn Hres. induction xs as [|x xs IH]; intros r A Hx; cbn [do_calls]; [eexists; reflexivity|].
  inversion Hx as [|? ? Hx1 Hx2]; subst. destruct (call_alive c x r Hn Hres A Hx1) as [r1 [-> A1]]. cbn [bind]. exact (IH r1 A1 Hx2).
Qed.

Lemma created_keys m ovs : forall k exts e, In (k, exts) ovs -> In e exts -> In k (dkeys (vals (s m))) ->
  In (out_name k e) (dkeys (created_vars m ovs)).
Proof.
  unfold created_vars.
  assert (Inner : forall k0 exts (d : dict (list val)) x, In x (dkeys d) -> In x (dkeys (fold_left (fun d e =>
     dset (match e with None => k0 | Some x => k0 ++ "_"%char :: x end) [] d) exts d))).
  { intros k0. induction exts as [|e exts IH]; intros d x Hx; [exact Hx|]. cbn [fold_left]. apply IH. now apply dkeys_dset_mem. }
  assert (Keep : forall (ovs : dict (list (option text))) (d : dict (list val)) x, In x (dkeys d) -> In x (dkeys (fold_left (fun d ke =>
     if dmem (fst ke) (vals (s m)) then fold_left (fun d e => dset (match e with None => fst ke | Some x => fst ke ++ "_"%char :: x end) [] d) (snd ke) d
     else d) ovs d))).
  { clear ovs. induction ovs as [|[k0 exts] ovs IH]; intros d x Hx; [exact Hx|]. cbn [fold_left fst snd]. apply IH.
    destruct (dmem k0 (vals (s m))); [|exact Hx]. now apply Inner. }
  generalize (@nil (text * list val)) as d. induction ovs as [|[k0 exts0] ovs IH]; intros d k exts e Hi He Hk; [destruct Hi|].
  cbn [fold_left fst snd]. destruct Hi as [Hi|Hi]; [|apply (IH _ k exts); assumption]. injection Hi as -> ->. apply Keep.
  destruct (dmem_keys k (vals (s m))) as [_|Hm]; [|contradiction].
  clear IH. revert d. induction exts as [|e0 exts IHe]; intros d; [destruct He|]. cbn [fold_left]. destruct He as [->|He].
  - apply Inner. destruct e as [x|]; cbn [out_name]; apply dget_In_keys; eexists; apply dget_dset_same.
  - now apply IHe.
Qed.

(** Any history after a first query succeeds. *)
Lemma any_order c tstart m var b xs : NoDup (dkeys (outvars c)) -> restart c = None -> supports c m ->
  sane c (Get var b) -> Forall (sane c) xs ->
  exists r0 r, initialize c tstart m = Ok r0 /\ do_calls c (Get var b :: xs) r0 = Ok r.
Proof.
  intros Hn Hres Hs Hv Hx. destruct (output_clear_total c
    {| grids := m; rt := tstart; rdt := 0; tout := 0; trestart := 0; n := 0; clear := None; o := [];
       file := {| nc_time := []; nc_bounds := []; nc_vars := created_vars m (outvars c) |} |}) as [r0 E]; [exact Hs|].
  exists r0. assert (Hi : initialize c tstart m = Ok r0) by exact E. pose proof (init_file _ _ _ _ Hi) as [Hw _].
  apply output_clear_ok in E. cbn [grids rt rdt tout trestart n clear o file] in E.
  destruct E as [E1 [_ [_ [_ [_ [_ [E6 [E7 E8]]]]]]]].
  cbn [do_calls do_call sane] in *. destruct Hv as [Hv [Hct Hcu]]. unfold get. rewrite lookup_plain, base_get_set_clear by exact Hv.
  assert (T : exists v, base_get r0 var = Ok v).
  { unfold base_get, State_Model.get_var. destruct (dget var (vals (s (grids r0)))); [|eexists; reflexivity].
    destruct (mem_spec var [txt "Ct"; txt "Cu"]) as [Hm|_]; [|eexists; reflexivity].
    exfalso. destruct Hm as [<-|[<-|[]]]; contradiction. }
  destruct T as [v ->]. cbn [bind snd].
  destruct (calls_alive c xs Hn Hres (set_clear b r0)) as [r Hr]; [|exact Hx|exists r; now split].
  constructor; cbn [set_clear grids o clear file].
  - now rewrite E1.
  - intros k Hk. exists fresh_acc. now apply E8.
  - discriminate.
  - intros k exts e Hi' He. rewrite E7. cbn [nc_vars]. apply (created_keys m (outvars c) k exts); [exact Hi'|exact He|].
    apply (supports_keys c m Hs). exact (in_dkeys _ _ _ Hi').
  - exact Hw.
Qed.

(** Without a query before it, the first update fails. *)
Lemma first_update_fails c tstart m a xs r0 : initialize c tstart m = Ok r0 -> do_calls c (Update a :: xs) r0 = Raise AttributeError.
Proof.
  intros H. apply output_clear_ok in H. cbn [grids rt rdt tout trestart n clear o file] in H.
  destruct H as [_ [_ [_ [_ [_ [_ [E [_ _]]]]]]]]. cbn [do_calls do_call]. unfold update. rewrite E. reflexivity.
Qed.
(** Names with separators. *)
Lemma has_char_in x k : In x k -> has_char x k = true.
Proof. intros H. destruct (has_char_spec x k); [reflexivity|contradiction]. Qed.
Lemma two_underscores r a b d : ~ In "_"%char a -> ~ In "_"%char b ->
  lookup_var r (a ++ txt "_" ++ b ++ txt "_" ++ d) = Raise ValueError.
Proof.
  intros Ha Hb. unfold lookup_var.
  change (txt "_" ++ b ++ txt "_" ++ d) with ("_"%char :: b ++ "_"%char :: d).
  rewrite has_char_in by (apply in_or_app; right; now left). unfold split2.
  rewrite split_char_app, split_char_app by assumption.
  destruct (split_char "_"%char d) as [|x l] eqn:E; [|reflexivity].
  exfalso. destruct d as [|y d]; cbn [split_char] in E; [discriminate|].
  destruct (Ascii.eqb "_"%char y); [discriminate|]. destruct (split_char "_"%char d); discriminate.
Qed.
Lemma one_underscore r a b : plain a -> ~ In "_"%char b -> ~ In a (dkeys (o r)) ->
  lookup_var r (a ++ txt "_" ++ b) = base_get r a.
Proof.
  intros Ha Hb Ho. unfold lookup_var. change (txt "_" ++ b) with ("_"%char :: b).
  rewrite has_char_in by (apply in_or_app; right; now left). unfold split2.
  rewrite split_char_app, split_char_no by (assumption || apply Ha). cbn [bind fst snd].
  destruct (dmem_keys a (o r)) as [Hi|_]; [contradiction|]. destruct (plain_chars a Ha) as [_ ->]. reflexivity.
Qed.
Lemma one_underscore_stat r a b : ~ In "_"%char a -> ~ In "_"%char b -> In a (dkeys (o r)) ->
  lookup_var r (a ++ txt "_" ++ b) = get_statistic r a b.
Proof.
  intros Ha Hb Ho. unfold lookup_var. change (txt "_" ++ b) with ("_"%char :: b).
  rewrite has_char_in by (apply in_or_app; right; now left). unfold split2.
  rewrite split_char_app, split_char_no by assumption. cbn [bind fst snd].
  destruct (dmem_keys a (o r)) as [_|Hi]; [reflexivity|contradiction].
Qed.

Lemma dotted_name r a b : plain a -> ~ In "_"%char b -> ~ In "."%char b ->
  (In a (dkeys (o r)) -> lookup_var r (a ++ txt "." ++ b) = get_statistic r a b) /\
  (~ In a (dkeys (o r)) -> lookup_var r (a ++ txt "." ++ b) = base_get r a).
Proof.
  intros Ha Hb Hd. unfold lookup_var. change (txt "." ++ b) with ("."%char :: b).
  destruct (plain_chars a Ha) as [U D].
  destruct (has_char_spec "_"%char (a ++ "."%char :: b)) as [Hi|_].
  { exfalso. apply in_app_or in Hi. destruct Hi as [Hi|[Hi|Hi]]; [destruct Ha; contradiction|discriminate|contradiction]. }
  rewrite has_char_in by (apply in_or_app; right; now left). unfold split2.
  rewrite split_char_app, split_char_no by (assumption || apply Ha). cbn [bind fst snd].
  destruct (dmem_keys a (o r)) as [Hi|Hi]; split; intros H; try contradiction; reflexivity.
Qed.

(** ** Requested outputs *)
Lemma dset_in {V} (k k' : text) (v v' : V) d : In (k, v) (dset k' v' d) -> (k = k' /\ v = v') \/ In (k, v) d.
Proof.
  induction d as [|[k0 v0] d IH]; cbn [dset].
  - intros [H|[]]. injection H as <- <-. left; split; reflexivity.
  - destruct (text_eqb_spec k' k0) as [->|Hne].
    + intros [H|H]; [injection H as <- <-; left; split; reflexivity|right; now right].
    + intros [H|H]; [right; now left|]. destruct (IH H) as [G|G]; [now left|right; now right].
Qed.
Lemma dset_in_same {V} (k : text) (v : V) d : In (k, v) (dset k v d).
Proof.
  induction d as [|[k0 v0] d IH]; cbn [dset]; [now left|]. destruct (text_eqb_spec k k0) as [->|Hne]; [now left|now right].
Qed.
Lemma dget_in {V} (k : text) (v : V) d : dget k d = Some v -> In (k, v) d.
Proof.
  induction d as [|[k0 v0] d IH]; cbn [dget]; [discriminate|]. destruct (text_eqb_spec k k0) as [->|Hne].
  - intros H. injection H as <-. now left.
  - intros H. right. now apply IH.
Qed.
Lemma in_dget {V} (k : text) (v : V) d : NoDup (dkeys d) -> In (k, v) d -> dget k d = Some v.
Proof.
  unfold dkeys. induction d as [|[k0 v0] d IH]; intros Hn Hi; [destruct Hi|]. cbn [map fst] in Hn. inversion Hn as [|? ? H1 H2]; subst.
  cbn [dget]. destruct Hi as [Hi|Hi].
  - injection Hi as -> ->. now rewrite text_eqb_refl.
  - destruct (text_eqb_spec k k0) as [->|Hne]; [|now apply IH]. exfalso. apply H1. exact (in_dkeys _ _ _ Hi).
Qed.

Lemma opt_eqb_eq a b : opt_eqb a b = true -> a = b.
Proof. destruct a as [x|], b as [y|]; cbn; try discriminate; [|reflexivity]. destruct (text_eqb_spec x y) as [->|]; [reflexivity|discriminate]. Qed.
Lemma add_ext_mono exts e x : In x exts -> In x (add_ext exts e).
Proof. unfold add_ext. destruct (existsb (opt_eqb e) exts); [tauto|]. intros H. apply in_or_app. now left. Qed.
Lemma add_ext_in exts e : In e (add_ext exts e).
Proof.
  unfold add_ext. destruct (existsb (opt_eqb e) exts) eqn:E; [|apply in_or_app; right; now left].
  apply existsb_exists in E. destruct E as [x [H1 H2]]. apply opt_eqb_eq in H2. now subst x.
Qed.
Lemma add_exts_mono es : forall exts x, In x exts -> In x (fold_left add_ext es exts).
Proof. induction es as [|e es IH]; intros exts x H; [exact H|]. cbn [fold_left]. apply IH. now apply add_ext_mono. Qed.
Lemma add_exts_in es : forall exts x, In x es -> In x (fold_left add_ext es exts).
Proof.
  induction es as [|e es IH]; intros exts x [] ; cbn [fold_left].
  - subst x. apply add_exts_mono, add_ext_in.
  - now apply IH.
Qed.

Lemma split2_parts x var a b : split2 x var = Ok (a, b) -> ~ In x a /\ forall y, In y a -> In y var.
Proof.
  unfold split2. destruct (split_char x var) as [|a' [|b' [|z l]]] eqn:E; try discriminate.
  intros H. apply Ok_inj in H. injection H as -> ->.
  assert (G : forall (v : text) l, split_char x v = l -> match l with [] => False | a :: _ => ~ In x a /\ forall y, In y a -> In y v end).
  { clear. induction v as [|c v IH]; intros l <-; cbn [split_char]; [split; [intros []|tauto]|].
    destruct (Ascii.eqb_spec x c) as [->|Hne]; [split; [intros []|intros y []]|].
    specialize (IH _ eq_refl). destruct (split_char x v) as [|a l]; [destruct IH|]. destruct IH as [I1 I2]. split.
    - intros [->|Hi]; [now apply Hne|contradiction].
    - intros y [->|Hy]; [now left|right; now apply I2]. }
  exact (G var _ E).
Qed.
Lemma parse_plain var k e : ~ (In "_"%char var /\ In "."%char var) -> parse_outvar var = Ok (k, e) -> plain k.
Proof.
  intros Hb. unfold parse_outvar.
  destruct (has_char_spec "_"%char var) as [Hu|Hu].
  - destruct (split2 "_"%char var) as [[a b]|] eqn:E; [|discriminate]. cbn [bind fst snd]. intros H. apply Ok_inj in H. injection H as <- _.
    apply split2_parts in E. destruct E as [E1 E2]. split; [exact E1|]. intros Hd. apply Hb. split; [exact Hu|now apply E2].
  - destruct (has_char_spec "."%char var) as [Hd|Hd].
    + destruct (split2 "."%char var) as [[a b]|] eqn:E; [|discriminate]. cbn [bind fst snd]. intros H. apply Ok_inj in H. injection H as <- _.
      apply split2_parts in E. destruct E as [E1 E2]. split; [|exact E1]. intros Hd'. apply Hu. now apply E2.
    + intros H. apply Ok_inj in H. injection H as <- _. now split.
Qed.

Lemma requested_ok types vars : (forall v, In v vars -> ~ (In "_"%char v /\ In "."%char v)) -> forall d d',
  output_vars types vars d = Ok d' -> NoDup (dkeys d) -> (forall k exts, In (k, exts) d -> plain k) ->
  NoDup (dkeys d') /\ (forall k exts, In (k, exts) d' -> plain k) /\
  (forall k exts, In (k, exts) d -> exists exts', In (k, exts') d' /\ forall e, In e exts -> In e exts') /\
  (forall v k e, In v vars -> parse_outvar v = Ok (k, e) -> exists exts, In (k, exts) d' /\ In e exts /\ forall t, In t types -> In (Some t) exts).
Proof.
  intros Hv d d'. revert d. induction vars as [|v vars IH]; intros d H Hn Hp; cbn [output_vars] in H.
  - apply Ok_inj in H. subst d'. split; [exact Hn|]. split; [exact Hp|]. split; [|intros v k e []].
    intros k exts Hi. exists exts. split; [exact Hi|tauto].
  - destruct (add_outvar types d v) as [d1|] eqn:E; [|discriminate]. cbn [bind] in H.
    unfold add_outvar in E. destruct (parse_outvar v) as [[k0 e0]|] eqn:Ep; [|discriminate]. cbn [bind] in E. apply Ok_inj in E.
    set (l0 := match dget k0 d with Some l => l | None => [] end) in *. set (l1 := fold_left add_ext (e0 :: map Some types) l0) in *. subst d1.
    assert (P0 : plain k0) by (apply (parse_plain v k0 e0); [apply Hv; now left|exact Ep]).
    apply IH in H; [|intros v' Hv'; apply Hv; now right|now apply dset_nodup|].
    2:{ intros k exts Hi. apply dset_in in Hi. destruct Hi as [[-> _]|Hi]; [exact P0|exact (Hp k exts Hi)]. }
    destruct H as [G1 [G2 [G3 G4]]]. split; [exact G1|]. split; [exact G2|]. split.
    + intros k exts Hi. destruct (text_eqb_spec k k0) as [->|Hne].
      * destruct (G3 k0 l1 (dset_in_same _ _ _)) as [exts' [I1 I2]]. exists exts'. split; [exact I1|]. intros e He. apply I2. unfold l1.
        apply add_exts_mono. unfold l0. rewrite (in_dget _ _ _ Hn Hi). exact He.
      * apply G3. apply dget_in. rewrite dget_dset_other by exact Hne. now apply in_dget.
    + intros v' k e [<-|Hv'] Hpv; [|exact (G4 v' k e Hv' Hpv)]. rewrite Ep in Hpv. apply Ok_inj in Hpv. injection Hpv as <- <-.
      destruct (G3 k0 l1 (dset_in_same _ _ _)) as [exts' [I1 I2]]. exists exts'. split; [exact I1|]. split.
      * apply I2. unfold l1. apply add_exts_in. now left.
      * intros t Ht. apply I2. unfold l1. apply add_exts_in. right. now apply in_map.
Qed.

Lemma requested types vars d : (forall v, In v vars -> ~ (In "_"%char v /\ In "."%char v)) -> output_vars types vars [] = Ok d ->
  NoDup (dkeys d) /\ (forall k exts, In (k, exts) d -> plain k) /\
  (forall v k e, In v vars -> parse_outvar v = Ok (k, e) -> exists exts, In (k, exts) d /\ In e exts /\ forall t, In t types -> In (Some t) exts).
Proof.
  intros Hv H. destruct (requested_ok types vars Hv [] d H) as [H1 [H2 [_ H4]]]; [constructor|intros k exts []|]. now split.
Qed.

(** Statistics as requested by the user: [k_e], [k.e] or through the list of types. *)
Lemma parse_stat (k e : text) (x : ascii) : plain k -> plain e -> x = "_"%char \/ x = "."%char -> parse_outvar (k ++ x :: e) = Ok (k, Some e).
Proof.
  intros [Hk1 Hk2] [He1 He2] Hx. unfold parse_outvar. destruct Hx as [-> | ->].
  - rewrite has_char_in by (apply in_or_app; right; now left). unfold split2. rewrite split_char_app, split_char_no by assumption. reflexivity.
  - destruct (has_char_spec "_"%char (k ++ "."%char :: e)) as [Hi|_].
    { exfalso. apply in_app_or in Hi. destruct Hi as [Hi|[Hi|Hi]]; [now apply Hk1|discriminate Hi|now apply He1]. }
    rewrite has_char_in by (apply in_or_app; right; now left). unfold split2. rewrite split_char_app, split_char_no by assumption. reflexivity.
Qed.
Lemma parse_bare (k : text) : plain k -> parse_outvar k = Ok (k, None).
Proof. intros H. unfold parse_outvar. destruct (plain_chars k H) as [-> ->]. reflexivity. Qed.
Lemma stat_name_plain e : plain (stat_name e).
Proof. destruct e; split; cbn; intros H; repeat (destruct H as [H|H]; [discriminate|]); destruct H. Qed.

Lemma statistics_requested c types vars tstart m xs r0 r k e (x : ascii) :
  (forall v, In v vars -> ~ (In "_"%char v /\ In "."%char v)) -> output_vars types vars [] = Ok (outvars c) ->
  initialize c tstart m = Ok r0 -> do_calls c xs r0 = Ok r -> plain k -> x = "_"%char \/ x = "."%char ->
  In (k ++ x :: stat_name e) vars \/ (In k vars /\ In (stat_name e) types) ->
  exists v r', get (k ++ txt "_" ++ stat_name e) false r = Ok (v, r') /\ stat_of e (seen (track c k tstart xs)) v.
Proof.
  intros Hv Ho Hi Hr Hk Hx Hreq. destruct (requested types vars (outvars c) Hv Ho) as [R1 [R2 R3]].
  assert (Q : exists exts, In (k, exts) (outvars c) /\ In (Some (stat_name e)) exts).
  { destruct Hreq as [H|[H1 H2]].
    - destruct (R3 _ k (Some (stat_name e)) H (parse_stat k _ x Hk (stat_name_plain e) Hx)) as [exts [H1 [H2 _]]]. now exists exts.
    - destruct (R3 _ k None H1 (parse_bare k Hk)) as [exts [G1 [_ G2]]]. exists exts. split; [exact G1|now apply G2]. }
  destruct Q as [exts [Q1 Q2]].
  destruct (statistics_correct c tstart m xs r0 r R2 R1 Hi Hr k exts e Q1 Q2) as [v [V1 V2]].
  exists v. unfold get. rewrite one_underscore_stat.
  - change (get_statistic (set_clear false r) k (stat_name e)) with (get_statistic r k (stat_name e)). rewrite V1. cbn [bind]. eexists. split; [reflexivity|exact V2].
  - apply Hk.
  - apply (stat_name_plain e).
  - pose proof (init_related c k exts tstart m r0 Q1 Hi) as R0.
    pose proof (calls_related c k exts xs R2 R1 Q1 _ _ _ R0 Hr) as [[a [Ra1 _]] _ _ _ _ _].
    cbn [set_clear o]. apply dget_In_keys. now exists a.
Qed.
