From Coq Require Import Sorting.Sorted.
From Verif Require Import Base Num Config_Model Config_Proofs State_Model State_Proofs Runner_Model Runner_Spec.
Open Scope Q_scope.

Lemma plain_chars k : plain k -> has_char "_"%char k = false /\ has_char "."%char k = false.
Proof.
  intros [H1 H2]. split.
  - destruct (has_char_spec "_"%char k); [contradiction|reflexivity].
  - destruct (has_char_spec "."%char k); [contradiction|reflexivity].
Qed.
Lemma lookup_plain r k : plain k -> lookup_var r k = base_get r k.
Proof. intros H. unfold lookup_var. destruct (plain_chars k H) as [-> ->]. reflexivity. Qed.
Lemma base_get_set_clear b r k : base_get (set_clear b r) k = base_get r k.
Proof. reflexivity. Qed.
Lemma get_plain r k b v : plain k -> get k b r = Ok v -> snd v = set_clear b r /\ base_get r k = Ok (fst v).
Proof.
  intros H. unfold get. rewrite lookup_plain, base_get_set_clear by exact H.
  destruct (base_get r k) as [x|e]; [|discriminate]. cbn [bind]. intros E. apply Ok_inj in E. subst v. split; reflexivity.
Qed.
Lemma get_snd r k b v : get k b r = Ok v -> snd v = set_clear b r.
Proof.
  unfold get. destruct (lookup_var (set_clear b r) k); [|discriminate]. cbn [bind].
  intros E. apply Ok_inj in E. now subst v.
Qed.

(** ** clear_all *)
Lemma clear_all_ok keys : forall r r', clear_all keys r = Ok r' ->
  r' = set_o (o r') r /\
  (forall k, In k keys -> dget k (o r') = Some fresh_acc) /\
  (forall k, ~ In k keys -> dget k (o r') = dget k (o r)) /\
  (forall k, In k keys -> In k (dkeys (vals (s (grids r))))).
Proof.
  induction keys as [|k0 keys IH]; intros r r' H; cbn [clear_all] in H.
  - apply Ok_inj in H. subst r'. split; [destruct r; reflexivity|]. split; [intros k []|]. split; [reflexivity|intros k []].
  - destruct (dmem_keys k0 (vals (s (grids r)))) as [Hm|_]; [|discriminate].
    apply IH in H. destruct H as [H1 [H2 [H3 H4]]]. split; [|split; [|split]].
    + rewrite H1. reflexivity.
    + intros k [->|Hk]; [|now apply H2]. destruct (in_dec (list_eq_dec Ascii.ascii_dec) k keys) as [Hi|Hi]; [now apply H2|].
      rewrite H3 by exact Hi. cbn [set_o o]. apply dget_dset_same.
    + intros k Hk. cbn [In] in Hk. rewrite H3 by tauto. cbn [set_o o]. apply dget_dset_other. intros ->. tauto.
    + intros k [->|Hk]; [exact Hm|now apply H4].
Qed.

Lemma clear_all_total keys : forall r, (forall k, In k keys -> In k (dkeys (vals (s (grids r))))) ->
  exists r', clear_all keys r = Ok r'.
Proof.
  induction keys as [|k0 keys IH]; intros r H; cbn [clear_all]; [now exists r|].
  destruct (dmem_keys k0 (vals (s (grids r)))) as [_|Hn]; [|exfalso; apply Hn, H; now left].
  apply IH. intros k Hk. cbn [set_o grids]. apply H. now right.
Qed.

Lemma output_clear_ok c r r' : output_clear c r = Ok r' ->
  grids r' = grids r /\ rt r' = rt r /\ rdt r' = rdt r /\ tout r' = tout r /\ trestart r' = trestart r /\ n r' = 0%nat /\
  clear r' = clear r /\ file r' = file r /\ (forall k, In k (dkeys (outvars c)) -> dget k (o r') = Some fresh_acc).
Proof.
  unfold output_clear. destruct (clear_all (dkeys (outvars c)) r) as [r1|e] eqn:E; [|discriminate]. cbn [bind].
  intros H. apply Ok_inj in H. subst r'. apply clear_all_ok in E. destruct E as [-> [H2 _]].
  cbn [set_n set_o grids rt rdt tout trestart n clear file o] in *. repeat split. exact H2.
Qed.

(** ** update_all *)
Lemma update_all_ok ovs : (forall k exts, In (k, exts) ovs -> plain k) -> NoDup (dkeys ovs) ->
  forall r r', update_all ovs r = Ok r' ->
  grids r' = grids r /\ rt r' = rt r /\ rdt r' = rdt r /\ tout r' = tout r /\ trestart r' = trestart r /\ n r' = n r /\ file r' = file r /\
  (ovs <> [] -> clear r' = Some false) /\ (ovs = [] -> clear r' = clear r) /\
  (forall k exts, In (k, exts) ovs -> exists v a, base_get r k = Ok (Num v) /\ dget k (o r) = Some a /\
      dget k (o r') = Some (add_value exts v a)) /\
  (forall k, ~ In k (dkeys ovs) -> dget k (o r') = dget k (o r)).
Proof.
  unfold dkeys. induction ovs as [|[k0 e0] ovs IH]; intros Hp Hn r r' H; cbn [update_all] in H.
  - apply Ok_inj in H. subst r'. repeat split; try reflexivity; try tauto. intros k exts [].
  - cbn [map fst] in Hn. inversion Hn as [|? ? Hk0 Hn']; subst.
    destruct (get k0 false r) as [vr|] eqn:Eg; [|discriminate]. cbn [bind] in H.
    destruct (get_plain r k0 false vr) as [Es Ev]; [apply (Hp k0 e0); now left|exact Eg|]. rewrite Es in H.
    destruct (fst vr) as [v| | |] eqn:Ef; try discriminate. cbn [set_clear o] in H.
    destruct (dget k0 (o r)) as [a|] eqn:Ea; [|discriminate].
    apply IH in H; [|intros k exts Hi; apply (Hp k exts); now right|exact Hn'].
    destruct H as [H1 [H2 [H3 [H4 [H4' [H5 [H6 [H7 [H8 [H9 H10]]]]]]]]]].
    cbn [set_o set_clear grids rt rdt tout trestart n file clear o] in *.
    repeat split; try assumption.
    + intros _. destruct ovs as [|x ovs']; [now apply H8|apply H7; discriminate].
    + discriminate.
    + intros k exts [Hi|Hi].
      * injection Hi as <- <-. exists v, a. split; [exact Ev|]. split; [exact Ea|].
        rewrite H10 by exact Hk0. apply dget_dset_same.
      * destruct (H9 k exts Hi) as [v' [a' [G1 [G2 G3]]]]. exists v', a'. split; [exact G1|]. split; [|exact G3].
        rewrite dget_dset_other in G2; [exact G2|]. intros ->. apply Hk0. apply in_map_iff. now exists (k0, exts).
    + intros k Hk. cbn [map fst In] in Hk. rewrite H10 by tauto. apply dget_dset_other. intros ->. tauto.
Qed.

Lemma update_all_total ovs : forall r, (forall k exts, In (k, exts) ovs -> plain k /\ (exists q, base_get r k = Ok (Num q)) /\
    exists a, dget k (o r) = Some a) -> exists r', update_all ovs r = Ok r'.
Proof.
  induction ovs as [|[k0 e0] ovs IH]; intros r H; cbn [update_all]; [now exists r|].
  destruct (H k0 e0) as [Hp [[q Hq] [a Ha]]]; [now left|].
  unfold get. rewrite lookup_plain, base_get_set_clear, Hq by exact Hp. cbn [bind fst snd set_clear o]. rewrite Ha.
  apply IH. intros k exts Hi. destruct (H k exts) as [Hp' [Hq' [a' Ha']]]; [now right|]. split; [exact Hp'|].
  split; [exact Hq'|]. cbn [set_o o]. destruct (text_eqb_spec k k0) as [->|Hne].
  - eexists. apply dget_dset_same.
  - exists a'. rewrite dget_dset_other by exact Hne. exact Ha'.
Qed.

(** ** collect *)
Definition same_but_clear (r r' : runner) : Prop := r' = r \/ r' = set_clear false r.
Lemma sbc_trans a b c : same_but_clear a b -> same_but_clear b c -> same_but_clear a c.
Proof. unfold same_but_clear. intros [-> | ->] [-> | ->]; tauto. Qed.
Lemma collect_exts_ok k exts : forall r d dr, collect_exts k exts r d = Ok dr -> same_but_clear r (snd dr).
Proof.
  induction exts as [|e exts IH]; intros r d dr H; cbn [collect_exts] in H.
  - apply Ok_inj in H. subst dr. now left.
  - destruct e as [e|].
    + destruct (get_statistic r k e); [|discriminate]. cbn [bind] in H. exact (IH _ _ _ H).
    + destruct (get k false r) as [vr|] eqn:Eg; [|discriminate]. cbn [bind] in H. apply get_snd in Eg.
      apply sbc_trans with (snd vr); [right; exact Eg|]. destruct (fst vr); try discriminate; exact (IH _ _ _ H).
Qed.
Lemma collect_ok ovs : forall r d dr, collect ovs r d = Ok dr -> same_but_clear r (snd dr).
Proof.
  induction ovs as [|[k exts] ovs IH]; intros r d dr H; cbn [collect] in H.
  - apply Ok_inj in H. subst dr. now left.
  - destruct (collect_exts k exts r d) as [dr1|] eqn:E; [|discriminate]. cbn [bind] in H.
    apply sbc_trans with (snd dr1); [exact (collect_exts_ok _ _ _ _ _ E)|exact (IH _ _ _ H)].
Qed.

Lemma append_ok time vs f f' : append time vs f = Ok f' -> nc_time f' = nc_time f ++ [time].
Proof. unfold append. destruct (put_all _ _ _); [|discriminate]. cbn [bind]. intros H. apply Ok_inj in H. now subst f'. Qed.

Lemma write_output_ok c r r' : write_output c r = Ok r' ->
  grids r' = grids r /\ rt r' = rt r /\ rdt r' = rdt r /\
  (due c r = false -> r' = r) /\
  (due c r = true -> tout r' = rt r /\ n r' = 0%nat /\ nc_time (file r') = nc_time (file r) ++ [rt r] /\
     (forall k, In k (dkeys (outvars c)) -> dget k (o r') = Some fresh_acc) /\
     (clear r' = clear r \/ clear r' = Some false)).
Proof.
  unfold write_output. destruct (due c r); [|intros H; apply Ok_inj in H; subst r'; repeat split; discriminate].
  destruct (collect (outvars c) r []) as [dr|] eqn:Ec; [|discriminate]. cbn [bind].
  apply collect_ok in Ec.
  destruct (append (rt (snd dr)) (fst dr) (file (snd dr))) as [f|] eqn:Ea; [|discriminate]. cbn [bind].
  apply append_ok in Ea.
  match goal with |- context [output_clear c ?x] => destruct (output_clear c x) as [r2|] eqn:Eo; [|discriminate] end.
  cbn [bind]. intros H. apply Ok_inj in H. subst r'. apply output_clear_ok in Eo.
  cbn [grids rt rdt tout trestart n clear o file] in *.
  destruct Eo as [H1 [H2 [H3 [H4 [H4' [H5 [H6 [H7 H8]]]]]]]].
  destruct Ec as [Ec | Ec]; rewrite Ec in *; cbn [set_clear grids rt rdt tout trestart n clear o file] in *.
  - rewrite H1, H2, H3, H5, H6, H7, Ea. repeat split; try discriminate; tauto.
  - rewrite H1, H2, H3, H5, H6, H7, Ea. repeat split; try discriminate; tauto.
Qed.

Lemma output_write_ok c r r' : output_write c r = Ok r' ->
  grids r' = grids r /\ rt r' = rt r /\ rdt r' = rdt r /\
  (due c r = false -> tout r' = tout r /\ n r' = n r /\ o r' = o r /\ clear r' = clear r /\ file r' = file r) /\
  (due c r = true -> tout r' = rt r /\ n r' = 0%nat /\ nc_time (file r') = nc_time (file r) ++ [rt r] /\
     (forall k, In k (dkeys (outvars c)) -> dget k (o r') = Some fresh_acc) /\
     (clear r' = clear r \/ clear r' = Some false)).
Proof.
  unfold output_write. destruct (write_output c r) as [r1|] eqn:E; [|discriminate]. cbn [bind].
  apply write_output_ok in E. destruct E as [H1 [H2 [H3 [H4 H5]]]]. unfold write_restart.
  assert (Done : Ok r1 = Ok r' -> grids r' = grids r /\ rt r' = rt r /\ rdt r' = rdt r /\
    (due c r = false -> tout r' = tout r /\ n r' = n r /\ o r' = o r /\ clear r' = clear r /\ file r' = file r) /\
    (due c r = true -> tout r' = rt r /\ n r' = 0%nat /\ nc_time (file r') = nc_time (file r) ++ [rt r] /\
     (forall k, In k (dkeys (outvars c)) -> dget k (o r') = Some fresh_acc) /\
     (clear r' = clear r \/ clear r' = Some false))).
  { intros H. apply Ok_inj in H. subst r'. split; [exact H1|]. split; [exact H2|]. split; [exact H3|].
    split; [|exact H5]. intros Hd. rewrite (H4 Hd). repeat split. }
  destruct (restart c) as [q|]; [|exact Done].
  destruct (negb (Qeq_bool q 0) && Qle_bool q (rt r1 - trestart r1)); [discriminate|exact Done].
Qed.

(** ** Statistics *)
Definition acc_ok (exts : list (option text)) (l : list Q) (a : acc) : Prop :=
  (has_ext (txt "min") exts = true -> stat_of Min l (match a_min a with Some q => Num q | None => PosInf end)) /\
  (has_ext (txt "max") exts = true -> stat_of Max l (match a_max a with Some q => Num q | None => NegInf end)) /\
  (has_ext (txt "var") exts = true -> a_var a == qsum (map (fun x => x * x) l)) /\
  (has_ext (txt "sum") exts || has_ext (txt "avg") exts || has_ext (txt "var") exts = true -> a_sum a == qsum l).

Lemma acc_ok_fresh exts : acc_ok exts [] fresh_acc.
Proof. unfold acc_ok, fresh_acc. cbn. repeat split; reflexivity. Qed.

Lemma acc_ok_add exts l a v : acc_ok exts l a -> acc_ok exts (l ++ [v]) (add_value exts v a).
Proof.
  unfold acc_ok, add_value. cbn [a_min a_max a_var a_sum]. intros [H1 [H2 [H3 H4]]]. split; [|split; [|split]].
  - intros E. rewrite E. specialize (H1 E). unfold omin. cbn [stat_of]. destruct (a_min a) as [q|]; cbn [stat_of] in H1.
    + destruct H1 as [Hi Hle]. destruct (qmin_cases q v) as [[-> Hq]|[-> Hq]].
      * split; [apply in_or_app; now left|]. intros x Hx. apply in_app_or in Hx. destruct Hx as [Hx|[<-|[]]]; [now apply Hle|exact Hq].
      * split; [apply in_or_app; right; now left|]. intros x Hx. apply in_app_or in Hx.
        destruct Hx as [Hx|[<-|[]]]; [specialize (Hle x Hx); lra|lra].
    + subst l. cbn [app In]. split; [now left|]. intros x [<-|[]]. lra.
  - intros E. rewrite E. specialize (H2 E). unfold omax. cbn [stat_of]. destruct (a_max a) as [q|]; cbn [stat_of] in H2.
    + destruct H2 as [Hi Hle]. destruct (qmax_cases q v) as [[-> Hq]|[-> Hq]].
      * split; [apply in_or_app; now left|]. intros x Hx. apply in_app_or in Hx. destruct Hx as [Hx|[<-|[]]]; [now apply Hle|exact Hq].
      * split; [apply in_or_app; right; now left|]. intros x Hx. apply in_app_or in Hx.
        destruct Hx as [Hx|[<-|[]]]; [specialize (Hle x Hx); lra|lra].
    + subst l. cbn [app In]. split; [now left|]. intros x [<-|[]]. lra.
  - intros E. rewrite E. rewrite map_app, qsum_app. rewrite (H3 E). unfold qsum. cbn [map fold_right]. lra.
  - intros E. rewrite E. rewrite qsum_app, (H4 E). unfold qsum. cbn [fold_right]. lra.
Qed.

Lemma count_pos x l : 0 < count_of (x :: l).
Proof. unfold count_of. rewrite <- (Zlt_Qlt 0). cbn [length]. lia. Qed.

(** Sum of squared deviations in terms of the accumulated sums. *)
Lemma deviations l m : qsum (map (fun x => (x - m) * (x - m)) l) ==
  qsum (map (fun x => x * x) l) - 2 * m * qsum l + count_of l * (m * m).
Proof.
  unfold count_of. induction l as [|x l IH]; unfold qsum in *; cbn [map fold_right length].
  - cbn [Z.of_nat]. ring.
  - rewrite IH, Nat2Z.inj_succ, <- Z.add_1_l, inject_Z_plus. ring.
Qed.
Lemma variance_formula l : (1 < length l)%nat ->
  (qsum (map (fun x => x * x) l) - qsum l * qsum l / qn (length l)) / qn (length l - 1) == sample_variance l.
Proof.
  intros Hl. unfold sample_variance. rewrite deviations. unfold mean.
  assert (Hc : 1 < count_of l). { unfold count_of. rewrite <- (Zlt_Qlt 1). lia. }
  change (qn (length l)) with (count_of l).
  assert (Hn1 : qn (length l - 1) == count_of l - 1).
  { unfold qn, count_of. rewrite Nat2Z.inj_sub by lia. unfold Z.sub. rewrite inject_Z_plus. reflexivity. }
  rewrite Hn1. field. split; lra.
Qed.

Lemma has_ext_in e exts : In (Some e) exts -> has_ext e exts = true.
Proof.
  intros H. unfold has_ext. apply existsb_exists. exists (Some e). split; [exact H|apply text_eqb_refl].
Qed.

Lemma statistic_ok r k exts l a : dget k (o r) = Some a -> acc_ok exts l a -> n r = length l ->
  forall e, In (Some (stat_name e)) exts -> exists v, get_statistic r k (stat_name e) = Ok v /\ stat_of e l v.
Proof.
  intros Ha [H1 [H2 [H3 H4]]] Hn e He. apply has_ext_in in He. unfold get_statistic. rewrite Ha.
  destruct e; cbn [stat_name] in *.
  - change (text_eqb (txt "min") (txt "min")) with true. cbn [bind]. eexists. split; [reflexivity|]. now apply H1.
  - change (text_eqb (txt "max") (txt "min")) with false. change (text_eqb (txt "max") (txt "max")) with true. cbn [bind].
    eexists. split; [reflexivity|]. now apply H2.
  - change (text_eqb (txt "sum") (txt "min")) with false. change (text_eqb (txt "sum") (txt "max")) with false.
    change (text_eqb (txt "sum") (txt "sum")) with true. cbn [bind].
    eexists. split; [reflexivity|]. cbn [stat_of]. apply H4. now rewrite He.
  - change (text_eqb (txt "avg") (txt "min")) with false. change (text_eqb (txt "avg") (txt "max")) with false.
    change (text_eqb (txt "avg") (txt "sum")) with false. change (text_eqb (txt "avg") (txt "avg")) with true. cbn [bind].
    eexists. split; [reflexivity|]. cbn [stat_of]. rewrite Hn. rewrite He, orb_true_r in H4. specialize (H4 eq_refl).
    destruct l as [|x l]; [reflexivity|]. cbn [length]. change (Nat.ltb 0 (S (length l))) with true. cbv iota.
    rewrite H4. reflexivity.
  - change (text_eqb (txt "var") (txt "min")) with false. change (text_eqb (txt "var") (txt "max")) with false.
    change (text_eqb (txt "var") (txt "sum")) with false. change (text_eqb (txt "var") (txt "avg")) with false.
    change (text_eqb (txt "var") (txt "var")) with true. cbn [bind].
    eexists. split; [reflexivity|]. cbn [stat_of]. rewrite Hn. rewrite He, orb_true_r in H4. specialize (H4 eq_refl). specialize (H3 He).
    destruct l as [|x [|y l]]; [reflexivity|reflexivity|].
    assert (Hlt : Nat.ltb 1 (length (x :: y :: l)) = true) by reflexivity. rewrite Hlt.
    rewrite <- variance_formula by (cbn [length]; lia). rewrite H3, H4. reflexivity.
Qed.

(** The invariant between tracker and runner. *)
Record related (c : config) (k : text) (exts : list (option text)) (tr : tracked) (r : runner) : Prop := {
  rel_acc : exists a, dget k (o r) = Some a /\ acc_ok exts (seen tr) a;
  rel_n : n r = length (seen tr);
  rel_clear : seen tr = [] \/ clear r = Some (reset_asked tr);
  rel_jump : Qltb (rdt r) (-1) = jumped tr;
  rel_now : rt r = now tr;
  rel_out : tout r = last_out tr }.

Lemma update_ok c a r r' : (forall k exts, In (k, exts) (outvars c) -> plain k) -> NoDup (dkeys (outvars c)) ->
  update c a r = Ok r' -> exists b, clear r = Some b /\
  grids r' = new_grids a /\ rt r' = new_t a /\ rdt r' = new_dt a /\ tout r' = tout r /\ file r' = file r /\
  n r' = S (if b || Qltb (rdt r) (-1) then 0 else n r) /\
  (outvars c <> [] -> clear r' = Some false) /\
  forall k exts, In (k, exts) (outvars c) -> exists v a', State_Model.get_var Qdiv (new_grids a) k = Ok (Some v) /\
    (if b || Qltb (rdt r) (-1) then Some fresh_acc else dget k (o r)) = Some a' /\
    dget k (o r') = Some (add_value exts v a').
Proof.
  intros Hp Hn. unfold update. destruct (clear r) as [b|]; [|discriminate].
  intros H. exists b. split; [reflexivity|]. revert H.
  assert (G : forall r1, (rt r1 = rt r /\ tout r1 = tout r /\ file r1 = file r /\
     n r1 = (if b || Qltb (rdt r) (-1) then 0 else n r)%nat /\
     forall k, In k (dkeys (outvars c)) -> dget k (o r1) = if b || Qltb (rdt r) (-1) then Some fresh_acc else dget k (o r)) ->
     output_update c (apply_after a r1) = Ok r' ->
     grids r' = new_grids a /\ rt r' = new_t a /\ rdt r' = new_dt a /\ tout r' = tout r /\ file r' = file r /\
     n r' = S (if b || Qltb (rdt r) (-1) then 0 else n r) /\
     (outvars c <> [] -> clear r' = Some false) /\
     forall k exts, In (k, exts) (outvars c) -> exists v a', State_Model.get_var Qdiv (new_grids a) k = Ok (Some v) /\
       (if b || Qltb (rdt r) (-1) then Some fresh_acc else dget k (o r)) = Some a' /\
       dget k (o r') = Some (add_value exts v a')).
  { intros r1 [E1 [E2 [E3 [E4 E5]]]]. unfold output_update.
    destruct (update_all (outvars c) (apply_after a r1)) as [r2|] eqn:Eu; [|discriminate]. cbn [bind].
    intros H. apply Ok_inj in H. subst r'. apply update_all_ok in Eu; [|exact Hp|exact Hn].
    destruct Eu as [H1 [H2 [H3 [H4 [H4' [H5 [H6 [H7 [H8 [H9 H10]]]]]]]]]].
    cbn [set_n apply_after grids rt rdt tout trestart n clear o file] in *.
    rewrite H5, E4. repeat split; try congruence. { exact H7. }
    intros k exts Hi. destruct (H9 k exts Hi) as [v [a' [G1 [G2 G3]]]]. exists v, a'. split; [|split; [|exact G3]].
    - unfold base_get in G1. cbn [apply_after grids] in G1. destruct (State_Model.get_var Qdiv (new_grids a) k) as [[q|]|]; cbn [bind] in G1; congruence.
    - rewrite <- E5; [exact G2|]. apply in_map_iff. now exists (k, exts). }
  destruct (b || Qltb (rdt r) (-1)) eqn:Eb.
  - destruct (output_clear c r) as [r1|] eqn:Ec; [|discriminate]. cbn [bind]. apply output_clear_ok in Ec.
    destruct Ec as [H1 [H2 [H3 [H4 [H4' [H5 [H6 [H7 H8]]]]]]]]. apply G. cbn [set_clear rt tout file n o]. repeat split; assumption.
  - cbn [bind]. apply G. repeat split; reflexivity.
Qed.

Lemma step_related c k exts x tr r r' :
  (forall k exts, In (k, exts) (outvars c) -> plain k) -> NoDup (dkeys (outvars c)) -> In (k, exts) (outvars c) ->
  related c k exts tr r -> do_call c x r = Ok r' -> related c k exts (track1 c k tr x) r'.
Proof.
  intros Hp Hn Hk [[a [Ra1 Ra2]] Rn Rc Rj Rt Ro]. destruct x as [af|var b|]; cbn [do_call track1].
  - intros H. apply update_ok in H; [|exact Hp|exact Hn].
    destruct H as [b [Hb [H1 [H2 [H3 [H4 [H5 [H6 [H7 H8]]]]]]]]].
    destruct (H8 k exts Hk) as [v [a' [G1 [G2 G3]]]]. rewrite G1. rewrite Rj in G2, H6.
    assert (Hne : outvars c <> []) by (intros E; rewrite E in Hk; destruct Hk).
    assert (Heq : acc_ok exts (if reset_asked tr || jumped tr then [] else seen tr) a' /\
                  (if b || jumped tr then 0 else n r)%nat = length (if reset_asked tr || jumped tr then [] else seen tr)).
    { destruct Rc as [Rc|Rc].
      - rewrite Rc in *. destruct (b || jumped tr); destruct (reset_asked tr || jumped tr);
          (split; [|first [reflexivity|exact Rn]]);
          first [injection G2 as <-; apply acc_ok_fresh | rewrite Ra1 in G2; injection G2 as <-; exact Ra2].
      - rewrite Hb in Rc. injection Rc as ->. destruct (reset_asked tr || jumped tr).
        + split; [|reflexivity]. injection G2 as <-. apply acc_ok_fresh.
        + split; [|exact Rn]. rewrite Ra1 in G2. injection G2 as <-. exact Ra2. }
    destruct Heq as [Q1 Q2]. constructor; cbn [seen reset_asked jumped now last_out].
    + eexists. split; [exact G3|]. now apply acc_ok_add.
    + rewrite H6, app_length, Q2. cbn [length]. lia.
    + right. now apply H7.
    + now rewrite H3.
    + exact H2.
    + now rewrite H4.
  - intros H. destruct (get var b r) as [vr|] eqn:Eg; [|discriminate]. cbn [bind] in H. apply Ok_inj in H.
    apply get_snd in Eg. subst r'. rewrite Eg.
    constructor; cbn [set_clear o n clear rdt rt tout seen reset_asked jumped now last_out]; try assumption.
    + now exists a.
    + now right.
  - intros H. apply output_write_ok in H. destruct H as [H1 [H2 [H3 [H4 H5]]]]. unfold due in H4, H5. rewrite Rt, Ro in H4, H5.
    destruct (Qle_bool (times c) (now tr - last_out tr) || Qeq_bool (now tr) 0).
    + destruct (H5 eq_refl) as [G1 [G2 [G3 [G4 G5]]]]. constructor; cbn [seen reset_asked jumped now last_out length].
      * exists fresh_acc. split; [|apply acc_ok_fresh]. apply G4. apply in_map_iff. now exists (k, exts).
      * exact G2.
      * now left.
      * now rewrite H3.
      * now rewrite H2.
      * exact G1.
    + destruct (H4 eq_refl) as [G1 [G2 [G3 [G4 G5]]]]. constructor.
      * exists a. now rewrite G3.
      * now rewrite G2.
      * now rewrite G4.
      * now rewrite H3.
      * now rewrite H2.
      * now rewrite G1.
Qed.

Lemma calls_related c k exts xs : (forall k exts, In (k, exts) (outvars c) -> plain k) -> NoDup (dkeys (outvars c)) ->
  In (k, exts) (outvars c) -> forall tr r r', related c k exts tr r -> do_calls c xs r = Ok r' ->
  related c k exts (fold_left (track1 c k) xs tr) r'.
Proof.
  intros Hp Hn Hk. induction xs as [|x xs IH]; intros tr r r' R H; cbn [do_calls fold_left] in *.
  - apply Ok_inj in H. now subst r'.
  - destruct (do_call c x r) as [r1|] eqn:E; [|discriminate]. cbn [bind] in H.
    apply (IH _ r1); [|exact H]. now apply (step_related c k exts x tr r).
Qed.

Lemma init_related c k exts tstart m r : In (k, exts) (outvars c) -> initialize c tstart m = Ok r ->
  related c k exts {| seen := []; reset_asked := false; jumped := false; now := tstart; last_out := 0 |} r.
Proof.
  intros Hk H. apply output_clear_ok in H. cbn [grids rt rdt tout trestart n clear o file] in H.
  destruct H as [H1 [H2 [H3 [H4 [H4' [H5 [H6 [H7 H8]]]]]]]].
  constructor; cbn [seen reset_asked jumped now last_out length].
  - exists fresh_acc. split; [|apply acc_ok_fresh]. apply H8. apply in_map_iff. now exists (k, exts).
  - exact H5.
  - now left.
  - now rewrite H3.
  - exact H2.
  - exact H4.
Qed.

Lemma statistics_correct c tstart m xs r0 r :
  (forall k exts, In (k, exts) (outvars c) -> plain k) -> NoDup (dkeys (outvars c)) ->
  initialize c tstart m = Ok r0 -> do_calls c xs r0 = Ok r ->
  forall k exts e, In (k, exts) (outvars c) -> In (Some (stat_name e)) exts ->
  exists v, get_statistic r k (stat_name e) = Ok v /\ stat_of e (seen (track c k tstart xs)) v.
Proof.
  intros Hp Hn Hi Hr k exts e Hk He. pose proof (init_related c k exts tstart m r0 Hk Hi) as R0.
  pose proof (calls_related c k exts xs Hp Hn Hk _ _ _ R0 Hr) as [[a [Ra1 Ra2]] Rn _ _ _ _].
  exact (statistic_ok r k exts _ a Ra1 Ra2 Rn e He).
Qed.

(** ** Schedule *)
Fixpoint sched (T last : Q) (pts : list Q) : list Q :=
  match pts with
  | [] => []
  | x :: r => if Qle_bool T (x - last) then x :: sched T x r else sched T last r
  end.

Lemma loop_times c l : (forall k exts, In (k, exts) (outvars c) -> plain k) -> NoDup (dkeys (outvars c)) ->
  forall r r', (forall a, In a l -> ~ new_t a == 0) ->
  do_calls c (flat_map (fun a => [Update a; Write]) l) r = Ok r' ->
  nc_time (file r') = nc_time (file r) ++ sched (times c) (tout r) (map new_t l).
Proof.
  intros Hp Hn. induction l as [|a l IH]; intros r r' Hz H; cbn [flat_map app do_calls map sched] in *.
  - apply Ok_inj in H. subst r'. now rewrite app_nil_r.
  - destruct (do_call c (Update a) r) as [r1|] eqn:E1; [|discriminate]. cbn [bind] in H.
    destruct (do_call c Write r1) as [r2|] eqn:E2; [|discriminate]. cbn [bind] in H.
    cbn [do_call] in E1, E2. apply update_ok in E1; [|exact Hp|exact Hn].
    destruct E1 as [b [_ [_ [H2 [_ [H4 [H5 _]]]]]]]. apply output_write_ok in E2.
    destruct E2 as [_ [_ [_ [G4 G5]]]]. apply IH in H; [|intros a' Ha'; apply Hz; now right]. rewrite H.
    unfold due in G4, G5. rewrite H2, H4 in G4, G5.
    assert (Hnz : Qeq_bool (new_t a) 0 = false).
    { destruct (Qeq_bool_spec (new_t a) 0) as [E|_]; [|reflexivity]. exfalso. apply (Hz a); [now left|exact E]. }
    rewrite Hnz, orb_false_r in G4, G5. destruct (Qle_bool (times c) (new_t a - tout r)).
    + destruct (G5 eq_refl) as [-> [_ [-> _]]]. rewrite H5, <- app_assoc. reflexivity.
    + destruct (G4 eq_refl) as [-> [_ [_ [_ ->]]]]. now rewrite H5.
Qed.

Lemma sched_in T : forall pts last w, In w (sched T last pts) -> In w pts.
Proof.
  induction pts as [|x pts IH]; intros last w; cbn [sched]; [tauto|].
  destruct (Qle_bool T (x - last)); cbn [In].
  - intros [->|H]; [now left|right; exact (IH _ _ H)].
  - intros H. right; exact (IH _ _ H).
Qed.

Lemma sched_spec T : 0 <= T -> forall pts last, StronglySorted Qlt (last :: pts) ->
  forall pre a post, last :: sched T last pts = pre ++ a :: post ->
  match post with
  | [] => forall x, In x (last :: pts) -> a < x -> x - a < T
  | b :: _ => T <= b - a /\ a < b /\ forall x, In x (last :: pts) -> a < x -> x < b -> x - a < T
  end.
Proof.
  intros HT. induction pts as [|y pts IH]; intros last Hs pre a post E; cbn [sched] in E.
  - destruct pre as [|z pre]; [|destruct pre; discriminate]. injection E as <- <-. intros x [<-|[]] Hx. lra.
  - inversion Hs as [|? ? Hs' Hf]; subst. inversion Hs' as [|? ? Hs'' Hf']; subst.
    rewrite Forall_forall in Hf, Hf'. pose proof (Hf y (or_introl eq_refl)) as Hy.
    destruct (Qle_bool_spec T (y - last)) as [Hd|Hd].
    + destruct pre as [|z pre].
      * injection E as <- <-. split; [lra|]. split; [exact Hy|]. intros x [<-|[<-|Hx]] H1 H2; try lra.
        specialize (Hf' x Hx). lra.
      * injection E as <- E. specialize (IH y Hs' pre a post E).
        assert (Ha : In a (y :: pts)).
        { assert (In a (y :: sched T y pts)) as [->|Hi] by (rewrite E; apply in_or_app; right; now left); [now left|].
          right. exact (sched_in _ _ _ _ Hi). }
        assert (Hla : last < a) by (apply Hf; exact Ha).
        destruct post as [|b post].
        { intros x [<-|Hx] H1; [lra|]. apply IH; assumption. }
        { destruct IH as [I1 [I2 I3]]. split; [exact I1|]. split; [exact I2|]. intros x [<-|Hx] H1 H2; [lra|]. apply I3; assumption. }
    + assert (Hsl : StronglySorted Qlt (last :: pts)).
      { constructor; [exact Hs''|]. apply Forall_forall. intros z Hz. apply Hf. now right. }
      specialize (IH last Hsl pre a post E).
      assert (Ha : last <= a).
      { assert (In a (last :: sched T last pts)) as [->|Hi] by (rewrite E; apply in_or_app; right; now left); [lra|].
        apply sched_in in Hi. assert (last < a) by (apply Hf; now right). lra. }
      destruct post as [|b post].
      * intros x [<-|[<-|Hx]] H1; [lra| |apply IH; [now right|exact H1]]. lra.
      * destruct IH as [I1 [I2 I3]]. split; [exact I1|]. split; [exact I2|].
        intros x [<-|[<-|Hx]] H1 H2; [lra|lra|]. apply I3; [now right|exact H1|exact H2].
Qed.

Lemma output_schedule c tstart m l r0 r :
  (forall k exts, In (k, exts) (outvars c) -> plain k) -> NoDup (dkeys (outvars c)) ->
  0 <= times c -> tstart == 0 \/ 0 < tstart /\ times c <= tstart ->
  StronglySorted Qlt (tstart :: map new_t l) ->
  initialize c tstart m = Ok r0 -> do_calls c (loop_calls l) r0 = Ok r ->
  well_scheduled (times c) (tstart :: map new_t l) (nc_time (file r)).
Proof.
  intros Hp Hn HT Hts Hs Hi Hr. unfold loop_calls in Hr. cbn [do_calls] in Hr.
  destruct (do_call c Write r0) as [r1|] eqn:E1; [|discriminate]. cbn [bind do_call] in Hr, E1.
  apply output_clear_ok in Hi. cbn [grids rt rdt tout trestart n clear o file] in Hi.
  destruct Hi as [_ [H2 [_ [H4 [_ [_ [_ [H7 _]]]]]]]].
  apply output_write_ok in E1. destruct E1 as [_ [_ [_ [_ G]]]].
  assert (Hd : due c r0 = true).
  { unfold due. rewrite H2, H4. destruct Hts as [Hts|[Hts1 Hts2]].
    - apply Qeq_bool_iff in Hts. rewrite Hts. apply orb_true_r.
    - destruct (Qle_bool_spec (times c) (tstart - 0)) as [_|Hx]; [reflexivity|lra]. }
  destruct (G Hd) as [G1 [_ [G3 _]]]. rewrite H7 in G3. cbn [nc_time app] in G3. rewrite H2 in G1, G3. clear H2 H4.
  assert (Hs0 := Hs). apply StronglySorted_inv in Hs. destruct Hs as [Hs' Hf]. rewrite Forall_forall in Hf.
  apply loop_times in Hr; [|exact Hp|exact Hn|].
  2:{ intros a Ha E. assert (tstart < new_t a) by (apply Hf; now apply in_map). destruct Hts as [Hts|[Hts _]]; lra. }
  rewrite Hr, G1, G3. cbn [app]. split; [|split; [reflexivity|]].
  - intros w [->|Hw]; [now left|right]. exact (sched_in _ _ _ _ Hw).
  - intros pre a post E. exact (sched_spec (times c) HT (map new_t l) tstart Hs0 pre a post E).
Qed.

(** The gap between outputs is at most the interval plus the largest step. *)
Lemma predecessor h : forall (pts : list Q) x0, StronglySorted Qlt (x0 :: pts) ->
  (forall pre a b post, x0 :: pts = pre ++ a :: b :: post -> b - a <= h) ->
  forall b, In b pts -> exists a, In a (x0 :: pts) /\ a < b /\ b - a <= h /\ forall x, In x (x0 :: pts) -> x < b -> x <= a.
Proof.
  induction pts as [|y pts IH]; intros x0 Hs Hh b Hb; [destruct Hb|].
  inversion Hs as [|? ? Hs' Hf]; subst. inversion Hs' as [|? ? Hs'' Hf']; subst. rewrite Forall_forall in Hf, Hf'.
  destruct Hb as [->|Hb].
  - exists x0. split; [now left|]. split; [apply Hf; now left|]. split; [apply (Hh [] x0 b pts); reflexivity|].
    intros x [<-|[<-|Hx]] Hlt; [lra|lra|]. specialize (Hf' x Hx). lra.
  - destruct (IH y Hs') with (b := b) as [a [H1 [H2 [H3 H4]]]]; [|exact Hb|].
    + intros pre a' b' post E. apply (Hh (x0 :: pre) a' b' post). now rewrite E.
    + exists a. split; [now right|]. split; [exact H2|]. split; [exact H3|].
      intros x [<-|Hx] Hlt; [|now apply H4]. assert (x0 < a) by (apply Hf; exact H1). lra.
Qed.
Lemma schedule_gap T h pts W : 0 <= T -> StronglySorted Qlt pts ->
  (forall pre a b post, pts = pre ++ a :: b :: post -> b - a <= h) ->
  well_scheduled T pts W -> forall pre a b post, W = pre ++ a :: b :: post -> T <= b - a <= T + h.
Proof.
  intros HT Hs Hh [H1 [_ H3]] pre a b post E. pose proof (H3 pre a (b :: post) E) as [G1 [G2 G3]]. split; [exact G1|].
  assert (Hb : In b pts) by (apply H1; rewrite E; apply in_or_app; right; right; now left).
  assert (Ha : In a pts) by (apply H1; rewrite E; apply in_or_app; right; now left).
  destruct pts as [|x0 pts]; [destruct Hb|]. destruct Hb as [->|Hb].
  - inversion Hs as [|? ? _ Hf]; subst. rewrite Forall_forall in Hf. destruct Ha as [->|Ha]; [lra|]. specialize (Hf a Ha). lra.
  - destruct (predecessor h pts x0 Hs Hh b Hb) as [q [Q1 [Q2 [Q3 Q4]]]].
    assert (a <= q) by (apply Q4; [exact Ha|exact G2]).
    destruct (Qlt_le_dec a q) as [Hlt|Hle]; [specialize (G3 q Q1 Hlt Q2); lra|lra].
Qed.

(** ** Restart *)
Lemma restart_aborts c r q r1 : restart c = Some q -> ~ q == 0 -> write_output c r = Ok r1 ->
  q <= rt r1 - trestart r1 -> output_write c r = Raise TypeError.
Proof.
  intros Hq Hz Hw Hd. unfold output_write. rewrite Hw. cbn [bind]. unfold write_restart. rewrite Hq.
  destruct (Qeq_bool_spec q 0); [contradiction|]. destruct (Qle_bool_spec q (rt r1 - trestart r1)); [reflexivity|contradiction].
Qed.
