From Verif Require Import Base Config_Model Config_Spec.
Local Open Scope char_scope.
Local Open Scope nat_scope.

(** ** Characters *)
Lemma is_space_spec c : reflect (space c) (is_space c).
Proof.
  unfold is_space, space. set (n := nat_of_ascii c).
  destruct (9 <=? n) eqn:E1, (n <=? 13) eqn:E2, (28 <=? n) eqn:E3, (n <=? 32) eqn:E4;
    cbn [andb orb]; constructor;
    rewrite ?Nat.leb_le, ?Nat.leb_gt in *; lia.
Qed.

Lemma is_digit_spec c : reflect (digit c) (is_digit c).
Proof.
  unfold is_digit, digit. set (n := nat_of_ascii c).
  destruct (48 <=? n) eqn:E1, (n <=? 57) eqn:E2; cbn [andb]; constructor;
    rewrite ?Nat.leb_le, ?Nat.leb_gt in *; lia.
Qed.

Lemma digit_not_space c : digit c -> is_space c = false.
Proof. intros H. destruct (is_space_spec c) as [Hs|]; [|reflexivity]. unfold digit, space in *; cbv zeta in Hs; lia. Qed.

Lemma digit_neq c x : digit c -> ~ digit x -> c <> x.
Proof. intros H H' ->. tauto. Qed.

Lemma has_char_spec c s : reflect (In c s) (has_char c s).
Proof.
  unfold has_char. destruct (existsb (Ascii.eqb c) s) eqn:E; constructor.
  - apply existsb_exists in E. destruct E as [x [Hx Hc]]. apply Ascii.eqb_eq in Hc. now subst.
  - intros H. assert (existsb (Ascii.eqb c) s = true).
    { apply existsb_exists. exists c. split; [exact H|apply Ascii.eqb_refl]. }
    congruence.
Qed.

(** ** strip *)
Lemma lstrip_spec s : exists a, s = a ++ lstrip s /\ Forall space a /\
  (forall c s', lstrip s = c :: s' -> ~ space c).
Proof.
  induction s as [|c s IH]; cbn [lstrip].
  - exists []. repeat split; [constructor|discriminate].
  - destruct (is_space_spec c) as [Hc|Hc].
    + destruct IH as [a [E [Fa Hn]]]. exists (c :: a). cbn [app]. rewrite <- E.
      repeat split; [now constructor|exact Hn].
    + exists []. repeat split; [constructor|]. intros c' s' E; inversion E; subst; exact Hc.
Qed.

Lemma strip_trimmed s : trimmed s (strip s).
Proof.
  unfold strip. destruct (lstrip_spec s) as [a [Ea [Fa Ha]]].
  destruct (lstrip_spec (rev (lstrip s))) as [b [Eb [Fb Hb]]].
  set (u := lstrip s) in *. set (w := lstrip (rev u)) in *.
  exists a, (rev b). assert (Eu : u = rev w ++ rev b).
  { rewrite <- rev_app_distr, <- Eb. now rewrite rev_involutive. }
  repeat split.
  - rewrite <- Eu. exact Ea.
  - exact Fa.
  - apply Forall_rev. exact Fb.
  - intros c s' E. apply (Ha c (s' ++ rev b)). rewrite Eu, E. reflexivity.
  - intros c s' E. apply (Hb c (rev s')).
    rewrite <- (rev_involutive w), E, rev_app_distr. reflexivity.
Qed.

Lemma lstrip_app a s : Forall space a -> lstrip (a ++ s) = lstrip s.
Proof.
  induction a as [|c a IH]; intros F; [reflexivity|].
  inversion F; subst. cbn [app lstrip]. destruct (is_space_spec c); [now apply IH|tauto].
Qed.

Lemma lstrip_id s : (forall c s', s = c :: s' -> ~ space c) -> lstrip s = s.
Proof.
  destruct s as [|c s]; intros H; [reflexivity|]. cbn [lstrip].
  destruct (is_space_spec c) as [Hc|]; [|reflexivity]. exfalso; exact (H c s eq_refl Hc).
Qed.

Lemma lstrip_all_space a : Forall space a -> lstrip a = [].
Proof. intros F. rewrite <- (app_nil_r a), lstrip_app by exact F. reflexivity. Qed.

Lemma trimmed_strip raw s : trimmed raw s -> strip raw = s.
Proof.
  intros [a [b [-> [Fa [Fb [Hh Hl]]]]]]. unfold strip.
  rewrite lstrip_app by exact Fa.
  destruct s as [|c s'].
  - cbn [app]. rewrite (lstrip_all_space b) by exact Fb. reflexivity.
  - rewrite (lstrip_id ((c :: s') ++ b)).
    2:{ intros c0 s0 E. cbn [app] in E. inversion E; subst. apply (Hh c0 s'). reflexivity. }
    rewrite rev_app_distr, lstrip_app by (apply Forall_rev; exact Fb).
    rewrite lstrip_id. { apply rev_involutive. }
    intros x y E. apply (Hl x (rev y)).
    rewrite <- (rev_involutive (c :: s')), E. reflexivity.
Qed.

Lemma trimmed_fun raw s s' : trimmed raw s -> trimmed raw s' -> s = s'.
Proof. intros H H'. rewrite <- (trimmed_strip _ _ H). now apply trimmed_strip. Qed.

Lemma strip_id s : (forall c, In c s -> ~ space c) -> strip s = s.
Proof.
  intros H. apply trimmed_strip. exists [], []. cbn [app]. rewrite app_nil_r.
  repeat split; try constructor; intros c s' ->; apply H; [now left|apply in_or_app; right; now left].
Qed.

(** ** split *)
Lemma split_char_no c (s : text) : ~ In c s -> split_char c s = [s].
Proof.
  induction s as [|x s IH]; intros H; cbn [split_char]; [reflexivity|].
  destruct (Ascii.eqb_spec c x) as [->|Hne]; [exfalso; apply H; now left|].
  rewrite IH; [reflexivity|]. intros Hi; apply H; now right.
Qed.

Lemma split_char_app c (a b : text) : ~ In c a -> split_char c (a ++ c :: b) = a :: split_char c b.
Proof.
  induction a as [|x a IH]; intros H; cbn [app split_char].
  - now rewrite Ascii.eqb_refl.
  - destruct (Ascii.eqb_spec c x) as [->|Hne]; [exfalso; apply H; now left|].
    rewrite IH; [reflexivity|]. intros Hi; apply H; now right.
Qed.

Lemma first_split (c : ascii) (s : text) : In c s -> exists a b : text, s = a ++ c :: b /\ ~ In c a.
Proof.
  induction s as [|x s IH]; intros H; [inversion H|].
  destruct (Ascii.eqb_spec c x) as [->|Hne].
  - exists [], s. split; [reflexivity|intros []].
  - destruct H as [H|H]; [congruence|]. destruct (IH H) as [a [b [-> Ha]]].
    exists (x :: a), b. split; [reflexivity|]. intros [Hi|Hi]; [congruence|tauto].
Qed.

Lemma split_first_no c (s : text) : ~ In c s -> split_first c s = s.
Proof. intros H. unfold split_first. now rewrite split_char_no. Qed.

Lemma split_first_app c (a b : text) : ~ In c a -> split_first c (a ++ c :: b) = a.
Proof. intros H. unfold split_first. now rewrite split_char_app. Qed.

(** ** reading lines *)
Lemma comment_line_dec line : starts_with ["%"] (strip line) = true <-> comment_line line.
Proof.
  unfold starts_with. cbn [length firstn]. split.
  - intros H. destruct (strip_trimmed line) as [a [b [E [Fa [Fb _]]]]].
    destruct (strip line) as [|c s]; [cbn in H; discriminate H|].
    cbn [firstn] in H. destruct (text_eqb_spec ["%"] [c]) as [Ec|]; [|discriminate H].
    injection Ec as Ec; subst c. exists a, (s ++ b). split; [exact E|exact Fa].
  - intros [a [r [-> Fa]]]. unfold strip. rewrite lstrip_app by exact Fa.
    assert (Hp : is_space "%" = false) by reflexivity.
    cbn [lstrip]. rewrite Hp. cbn [rev].
    destruct (lstrip_spec (rev r ++ ["%"])) as [x [Ex [Fx Hx]]].
    assert (Hlast : exists y, lstrip (rev r ++ ["%"]) = y ++ ["%"]).
    { clear Ex Fx Hx x. generalize (rev r) as l. induction l as [|c l IH].
      - exists []. cbn. reflexivity.
      - cbn [app lstrip]. destruct (is_space c); [exact IH|]. exists (c :: l). reflexivity. }
    destruct Hlast as [y ->]. rewrite rev_app_distr. reflexivity.
Qed.

Lemma assigns_split line k val :
  assigns line k val <->
  has_char "=" line = true /\ starts_with ["%"] (strip line) = false /\
  exists key rest, split_char "=" line = key :: val :: rest /\ strip key = k.
Proof.
  split.
  - intros [Hc [key [Hk [Ht [Hv Hl]]]]].
    assert (Hin : In "=" line).
    { destruct Hl as [->|[more ->]]; apply in_or_app; right; now left. }
    split; [now destruct (has_char_spec "=" line)|]. split.
    { destruct (starts_with ["%"] (strip line)) eqn:E; [|reflexivity].
      apply comment_line_dec in E. tauto. }
    exists key. destruct Hl as [->|[more ->]].
    + exists []. rewrite split_char_app, split_char_no by assumption.
      split; [reflexivity|now apply trimmed_strip].
    + exists (split_char "=" more). rewrite split_char_app, split_char_app by assumption.
      split; [reflexivity|now apply trimmed_strip].
  - intros [Hh [Hc [key [rest [Hs Hk]]]]]. split.
    { intros H. apply comment_line_dec in H. congruence. }
    destruct (has_char_spec "=" line) as [Hin|]; [|discriminate].
    destruct (first_split _ _ Hin) as [a [b [-> Ha]]].
    rewrite split_char_app in Hs by exact Ha. injection Hs as Ea Hs2. subst a.
    exists key. split; [exact Ha|]. split; [subst k; apply strip_trimmed|].
    destruct (has_char_spec "=" b) as [Hb|Hb].
    + destruct (first_split _ _ Hb) as [v [m [-> Hv]]].
      rewrite split_char_app in Hs2 by exact Hv. inversion Hs2; subst.
      split; [exact Hv|]. right. exists m. reflexivity.
    + rewrite split_char_no in Hs2 by exact Hb. inversion Hs2; subst.
      split; [exact Hb|]. now left.
Qed.

Lemma assigns_fun line k v k' v' : assigns line k v -> assigns line k' v' -> k = k' /\ v = v'.
Proof.
  intros H H'. apply assigns_split in H. apply assigns_split in H'.
  destruct H as [_ [_ [key [rest [E K]]]]]. destruct H' as [_ [_ [key' [rest' [E' K']]]]].
  rewrite E in E'. inversion E'; subst. tauto.
Qed.

(** What one line does to the dictionary. *)
Lemma read_line_cases files pf p line p' :
  read_line files pf p line = Ok p' ->
  (exists k val v, assigns line k val /\ parse_value files val pf false = Ok v /\ p' = dset k v p)
  \/ ((forall k val, ~ assigns line k val) /\ p' = p).
Proof.
  unfold read_line. intros H.
  destruct (has_char "=" line) eqn:Eh; cbn [andb] in H.
  - destruct (starts_with ["%"] (strip line)) eqn:Ec; cbn [negb] in H.
    + right. inversion H; subst. split; [|reflexivity].
      intros k val Ha. apply assigns_split in Ha. destruct Ha as [_ [Ha _]]. congruence.
    + destruct (split_char "=" line) as [|key [|val rest]] eqn:Es; try discriminate.
      left. unfold bind in H. destruct (parse_value files val pf false) as [v|e] eqn:Ev; [|discriminate].
      inversion H; subst. exists (strip key), val, v. split; [|tauto].
      apply assigns_split. split; [exact Eh|]. split; [exact Ec|]. exists key, rest. tauto.
  - right. inversion H; subst. split; [|reflexivity].
    intros k val Ha. apply assigns_split in Ha. destruct Ha as [Ha _]. congruence.
Qed.

Lemma read_lines_never files pf ls : forall p p' k,
  read_lines files pf p ls = Ok p' -> never_assigned ls k -> dget k p' = dget k p.
Proof.
  induction ls as [|l ls IH]; intros p p' k H Hn; cbn [read_lines] in H.
  - now inversion H.
  - unfold bind in H. destruct (read_line files pf p l) as [p1|e] eqn:E; [|discriminate].
    rewrite (IH _ _ k H).
    + apply read_line_cases in E. destruct E as [[k' [val [v [Ha [Hv ->]]]]]|[_ ->]]; [|reflexivity].
      apply dget_dset_other. intros ->. apply (Hn l val); [now left|exact Ha].
    + intros l' v' Hin. apply Hn. now right.
Qed.

Lemma read_lines_last files pf ls k val : forall p p',
  read_lines files pf p ls = Ok p' -> last_assignment ls k val ->
  exists v, parse_value files val pf false = Ok v /\ dget k p' = Some v.
Proof.
  intros p p' H [ls1 [line [ls2 [-> [Ha Hn]]]]]. revert p H.
  induction ls1 as [|l ls1 IH]; intros p H; cbn [app read_lines] in H; unfold bind in H.
  - destruct (read_line files pf p line) as [p1|e] eqn:E; [|discriminate].
    apply read_line_cases in E. destruct E as [[k' [val' [v [Ha' [Hv ->]]]]]|[Hno _]].
    + destruct (assigns_fun _ _ _ _ _ Ha Ha') as [<- <-]. exists v. split; [exact Hv|].
      rewrite (read_lines_never _ _ _ _ _ k H Hn). apply dget_dset_same.
    + exfalso. exact (Hno _ _ Ha).
  - destruct (read_line files pf p l) as [p1|e] eqn:E; [|discriminate]. exact (IH _ H).
Qed.

(** ** post-processing touches only the derived parameters *)
Lemma bind_Ok {A B} (m : result A) (f : A -> result B) b :
  bind m f = Ok b -> exists a, m = Ok a /\ f a = Ok b.
Proof. destruct m as [a|e]; cbn [bind]; intros H; [now exists a|discriminate]. Qed.

Ltac inv_bind H :=
  let a := fresh "a" in let E := fresh "E" in
  apply bind_Ok in H; destruct H as [a [E H]].

Lemma finish_frame files nc d f pf ld p k :
  read_configfile files nc d (Some f) pf ld = Ok p -> ~ In k derived_parameters ->
  exists p1, read_lines files pf (if ld then d else []) f = Ok p1 /\ dget k p = dget k p1.
Proof.
  unfold read_configfile. intros H Hk.
  inv_bind H. inv_bind H. inv_bind H. inv_bind H. inv_bind H.
  rename a into p1, a0 into p2, a1 into p3, a2 into p4, a3 into p5.
  exists p1. split; [exact E|].
  assert (N : forall x, In x derived_parameters -> k <> x) by (intros x Hx ->; tauto).
  assert (Q5 : dget k p = dget k p5).
  { unfold finish_nsave in H. destruct (dget (txt "nsavetimes") p5); [|now inversion H].
    inv_bind H. destruct a; [now inversion H|].
    inv_bind H. inv_bind H. inv_bind H. inv_bind H. destruct (Qeq_bool a2 0); [discriminate|].
    inversion H. apply dget_dset_other, N. cbn; tauto. }
  assert (Q4 : dget k p5 = dget k p4).
  { unfold finish_fences in E3. destruct (dget (txt "process_fences") p4); [|now inversion E3].
    inv_bind E3. destruct a; [now inversion E3|]. inversion E3. apply dget_dset_other, N. cbn; tauto. }
  assert (Q3 : dget k p4 = dget k p3).
  { unfold finish_h in E2. destruct (dget (txt "h") p3); [|now inversion E2].
    inv_bind E2. destruct a; [now inversion E2|]. inv_bind E2. inversion E2. apply dget_dset_other, N. cbn; tauto. }
  assert (Q2 : dget k p3 = dget k p2).
  { unfold finish_output in E1. destruct (dget (txt "output_file") p2); [|now inversion E1].
    inv_bind E1. destruct a; [now inversion E1|]. inversion E1. apply dget_dset_other, N. cbn; tauto. }
  assert (Q1 : dget k p2 = dget k p1).
  { unfold finish_grain in E0. destruct (dget (txt "grain_dist") p1); [|now inversion E0].
    inv_bind E0. inversion E0. rewrite !dget_dset_other; [reflexivity| |]; apply N; cbn; tauto. }
  congruence.
Qed.

Lemma config_last_assignment files nc d ls pf ld p k val :
  read_configfile files nc d (Some ls) pf ld = Ok p -> ~ In k derived_parameters ->
  last_assignment ls k val ->
  exists v, parse_value files val pf false = Ok v /\ dget k p = Some v.
Proof.
  intros H Hk Hl. destruct (finish_frame _ _ _ _ _ _ _ _ H Hk) as [p1 [H1 ->]].
  exact (read_lines_last _ _ _ _ _ _ _ H1 Hl).
Qed.

Lemma config_never_assigned files nc d ls pf ld p k :
  read_configfile files nc d (Some ls) pf ld = Ok p -> ~ In k derived_parameters ->
  never_assigned ls k ->
  dget k p = if ld then dget k d else None.
Proof.
  intros H Hk Hn. destruct (finish_frame _ _ _ _ _ _ _ _ H Hk) as [p1 [H1 ->]].
  rewrite (read_lines_never _ _ _ _ _ _ H1 Hn). destruct ld; reflexivity.
Qed.

(** Every file either never assigns [k] or has a last assignment of it. *)
Lemma assigned_or_not ls k : never_assigned ls k \/ exists val, last_assignment ls k val.
Proof.
  induction ls as [|l ls IH].
  - left. intros l v [].
  - destruct IH as [Hn|[val [ls1 [line [ls2 [-> [Ha Hn]]]]]]].
    + assert (D : (exists val, assigns l k val) \/ forall val, ~ assigns l k val).
      { destruct (has_char "=" l) eqn:Eh.
        2:{ right. intros val Ha. apply assigns_split in Ha. destruct Ha; congruence. }
        destruct (starts_with ["%"] (strip l)) eqn:Ec.
        { right. intros val Ha. apply assigns_split in Ha. destruct Ha as [_ [Ha _]]; congruence. }
        destruct (split_char "=" l) as [|key [|v rest]] eqn:Es.
        { right. intros val Ha. apply assigns_split in Ha.
          destruct Ha as [_ [_ [key [rest [Ha _]]]]]; congruence. }
        { right. intros val Ha. apply assigns_split in Ha.
          destruct Ha as [_ [_ [key' [rest [Ha _]]]]]; congruence. }
        destruct (text_eqb_spec (strip key) k) as [Hk|Hk].
        - left. exists v. apply assigns_split. repeat split; try assumption. exists key, rest. tauto.
        - right. intros val Ha. apply assigns_split in Ha.
          destruct Ha as [_ [_ [key' [rest' [Ha Hk']]]]]. rewrite Es in Ha. inversion Ha; subst. tauto. }
      destruct D as [[val Ha]|Hno].
      * right. exists val, [], l, ls. repeat split; try assumption. 1-2: apply Ha.
      * left. intros l' v [<-|Hin]; [apply Hno|now apply Hn].
    + right. exists val, (l :: ls1), line, ls2. repeat split; try assumption; apply Ha.
Qed.

Lemma read_lines_insert files pf extra : (forall k v, ~ assigns extra k v) ->
  forall ls1 ls2 p, read_lines files pf p (ls1 ++ extra :: ls2) = read_lines files pf p (ls1 ++ ls2).
Proof.
  intros Hno. assert (Hid : forall p, read_line files pf p extra = Ok p).
  { intros p. unfold read_line. destruct (has_char "=" extra) eqn:Eh; cbn [andb]; [|reflexivity].
    destruct (starts_with ["%"] (strip extra)) eqn:Ec; cbn [negb]; [reflexivity|].
    destruct (has_char_spec "=" extra) as [Hin|]; [|discriminate].
    destruct (first_split _ _ Hin) as [a [b [-> Ha]]].
    exfalso.
    destruct (split_char "=" b) as [|v rest] eqn:Eb.
    - destruct b as [|x b]; cbn [split_char] in Eb; [discriminate|].
      destruct (Ascii.eqb "=" x); [discriminate|]. destruct (split_char "=" b); discriminate.
    - apply (Hno (strip a) v). apply assigns_split. split; [now destruct (has_char_spec "=" (a ++ "=" :: b))|]. split; [exact Ec|].
      exists a, rest. rewrite split_char_app, Eb by exact Ha. tauto. }
  induction ls1 as [|l ls1 IH]; intros ls2 p; cbn [app read_lines].
  - rewrite Hid. reflexivity.
  - destruct (read_line files pf p l); cbn [bind]; [apply IH|reflexivity].
Qed.

Lemma config_irrelevant_line files nc d ls1 ls2 extra pf ld :
  (forall k v, ~ assigns extra k v) ->
  read_configfile files nc d (Some (ls1 ++ extra :: ls2)) pf ld =
  read_configfile files nc d (Some (ls1 ++ ls2)) pf ld.
Proof. intros H. unfold read_configfile. now rewrite read_lines_insert. Qed.

Lemma clean_comment (val c : text) : ~ In "%" val -> clean (val ++ "%" :: c) = clean val.
Proof.
  intros H. unfold clean.
  destruct (has_char_spec "%" (val ++ "%" :: c)) as [_|Hn].
  2:{ exfalso; apply Hn; apply in_or_app; right; now left. }
  destruct (has_char_spec "%" val) as [Hi|_]; [tauto|].
  now rewrite split_first_app.
Qed.

Lemma parse_comment files (val c : text) pf fl : ~ In "%" val ->
  parse_value files (val ++ "%" :: c) pf fl = parse_value files val pf fl.
Proof. intros H. unfold parse_value. now rewrite clean_comment. Qed.

(** ** numbers *)
Lemma digits_val_app a b :
  digits_val (a ++ b) = (digits_val a * 10 ^ Z.of_nat (length b) + digits_val b)%Z.
Proof.
  unfold digits_val. rewrite fold_left_app.
  generalize (fold_left (fun a c => (a * 10 + digit_val c)%Z) a 0%Z) as z.
  induction b as [|c b IH] using rev_ind; intros z; cbn [fold_left length].
  - cbn. lia.
  - rewrite !fold_left_app, app_length. cbn [fold_left length].
    rewrite IH. rewrite Nat2Z.inj_add, Z.pow_add_r by lia. cbn. ring.
Qed.

Lemma digits_val_cons c b :
  digits_val (c :: b) = (digit_val c * 10 ^ Z.of_nat (length b) + digits_val b)%Z.
Proof. change (c :: b) with ([c] ++ b). rewrite digits_val_app. cbn. f_equal. Qed.

Lemma digit_char_val n : (0 <= n < 10)%Z -> digit_val (digit_char n) = n.
Proof.
  intros H. unfold digit_val, digit_char. rewrite nat_ascii_embedding by lia. lia.
Qed.
Lemma digit_char_digit n : (0 <= n < 10)%Z -> digit (digit_char n).
Proof. intros H. unfold digit, digit_char. rewrite nat_ascii_embedding by lia. lia. Qed.

Lemma digits_aux_spec fuel : forall n acc,
  (0 <= n < 2 ^ Z.of_nat fuel)%Z -> (1 <= fuel) -> Forall digit acc ->
  Forall digit (digits_aux fuel n acc) /\ digits_aux fuel n acc <> [] /\
  digits_val (digits_aux fuel n acc) = (n * 10 ^ Z.of_nat (length acc) + digits_val acc)%Z.
Proof.
  induction fuel as [|f IH]; intros n acc Hn Hf Fa; [lia|].
  cbn [digits_aux]. pose proof (Z.mod_pos_bound n 10 ltac:(lia)) as Hm.
  pose proof (Z.div_mod n 10 ltac:(lia)) as Hd.
  destruct (Z.eqb_spec (n / 10) 0) as [Hz|Hz].
  - split; [constructor; [now apply digit_char_digit|exact Fa]|]. split; [discriminate|].
    rewrite digits_val_cons, digit_char_val by lia. f_equal. f_equal. lia.
  - assert (Hpos : (1 <= n / 10)%Z) by (pose proof (Z.div_pos n 10); lia).
    rewrite Nat2Z.inj_succ, Z.pow_succ_r in Hn by lia.
    assert (H1 : (1 <= f)). { destruct f; [cbn in Hn; lia|lia]. }
    destruct (IH (n / 10)%Z (digit_char (n mod 10) :: acc)) as [F [Ne V]]; [lia|exact H1| |].
    { constructor; [now apply digit_char_digit|exact Fa]. }
    split; [exact F|]. split; [exact Ne|]. rewrite V, digits_val_cons, digit_char_val by lia.
    cbn [length]. rewrite Nat2Z.inj_succ, Z.pow_succ_r by lia.
    rewrite Hd at 3. ring.
Qed.

Lemma print_nat_spec n : (0 <= n)%Z ->
  Forall digit (print_nat n) /\ print_nat n <> [] /\ digits_val (print_nat n) = n.
Proof.
  intros H. unfold print_nat.
  destruct (digits_aux_spec (S (Z.to_nat (Z.log2 n))) n []) as [F [Ne V]].
  - rewrite Nat2Z.inj_succ, Z2Nat.id by apply Z.log2_nonneg.
    destruct (Z.eq_dec n 0) as [->|]; [cbn; lia|]. pose proof (Z.log2_spec n); lia.
  - lia.
  - constructor.
  - split; [exact F|]. split; [exact Ne|]. rewrite V. cbn [length]. cbn. lia.
Qed.

Lemma forallb_digit s : Forall digit s -> forallb is_digit s = true.
Proof.
  intros F. apply forallb_forall. intros c Hc. rewrite Forall_forall in F.
  destruct (is_digit_spec c); [reflexivity|]. exfalso; auto.
Qed.

Lemma unsigned_int_re_digits s : s <> [] -> Forall digit s -> unsigned_int_re s = true.
Proof. intros H F. unfold unsigned_int_re. destruct s; [congruence|now apply forallb_digit]. Qed.

Lemma digit_not_minus c : digit c -> c <> "-".
Proof. intros H ->. unfold digit in H. cbn in H. lia. Qed.

Lemma no_minus_head s (A : Type) (x : text -> A) (y : A) :
  (forall c s', s = c :: s' -> c <> "-") ->
  match s with "-" :: s' => x s' | _ => y end = y.
Proof.
  intros H. destruct s as [|c s']; [reflexivity|].
  specialize (H c s' eq_refl).
  destruct c as [[] [] [] [] [] [] [] []]; try reflexivity. exfalso; apply H; reflexivity.
Qed.

Lemma int_re_print n : int_re (print_int n) = true /\ int_of (print_int n) = n.
Proof.
  unfold print_int. destruct (Z.ltb_spec n 0) as [Hn|Hn].
  - destruct (print_nat_spec (- n)) as [F [Ne V]]; [lia|].
    cbn [int_re int_of]. split; [now apply unsigned_int_re_digits|lia].
  - destruct (print_nat_spec n) as [F [Ne V]]; [lia|].
    assert (Hh : forall c s', print_nat n = c :: s' -> c <> "-").
    { intros c s' E. rewrite E in F. inversion F; subst. now apply digit_not_minus. }
    unfold int_re, int_of. rewrite !no_minus_head by exact Hh.
    split; [now apply unsigned_int_re_digits|exact V].
Qed.

Lemma minus_or_digit_plain c : (digit c \/ c = "-") -> ~ space c /\ c <> "%" /\ c <> " ".
Proof.
  intros [H|H].
  - unfold digit, space in *. repeat split.
    + cbv zeta. lia.
    + intros ->. cbn in H. lia.
    + intros ->. cbn in H. lia.
  - subst c. unfold space. cbn. repeat split; try congruence. lia.
Qed.

Lemma print_int_chars n c : In c (print_int n) -> digit c \/ c = "-".
Proof.
  unfold print_int. destruct (Z.ltb_spec n 0) as [Hn|Hn].
  - destruct (print_nat_spec (- n)) as [F _]; [lia|]. rewrite Forall_forall in F.
    intros [H|H]; [now right|left; now apply F].
  - destruct (print_nat_spec n) as [F _]; [lia|]. rewrite Forall_forall in F. intros H; left; now apply F.
Qed.

(** Cleaning leaves text without whitespace and comment signs alone. *)
Lemma clean_plain s : (forall c, In c s -> ~ space c /\ c <> "%") -> clean s = s.
Proof.
  intros H. unfold clean. destruct (has_char_spec "%" s) as [Hi|_].
  - exfalso. apply H in Hi. tauto.
  - apply strip_id. intros c Hc. now apply H.
Qed.

Lemma plain_no_blank s : (forall c, In c s -> ~ space c /\ c <> "%") -> has_char " " s = false.
Proof.
  intros H. destruct (has_char_spec " " s) as [Hi|]; [|reflexivity].
  apply H in Hi. exfalso. destruct Hi as [Hi _]. apply Hi. unfold space; cbn; lia.
Qed.

Lemma parse_plain files s pf : (forall c, In c s -> ~ space c /\ c <> "%") ->
  parse_value files s pf false = parse_word files pf s.
Proof. intros H. unfold parse_value. rewrite clean_plain, plain_no_blank by exact H. reflexivity. Qed.

Lemma print_int_not_TF n : text_eqb (print_int n) ["T"] = false /\ text_eqb (print_int n) ["F"] = false.
Proof.
  split; apply text_eqb_neq; intros E.
  - assert (H : In "T" (print_int n)) by (rewrite E; now left).
    apply print_int_chars in H. destruct H as [H|H]; [unfold digit in H; cbn in H; lia|discriminate].
  - assert (H : In "F" (print_int n)) by (rewrite E; now left).
    apply print_int_chars in H. destruct H as [H|H]; [unfold digit in H; cbn in H; lia|discriminate].
Qed.

Lemma parse_word_int files pf n : parse_word files pf (print_int n) = Ok (VInt n).
Proof.
  unfold parse_word. destruct (print_int_not_TF n) as [-> ->]. cbn [orb].
  destruct (int_re_print n) as [-> ->]. reflexivity.
Qed.

Lemma roundtrip_int files pf fill n :
  parse_value files (print_value fill (VInt n)) pf false = Ok (VInt n).
Proof.
  cbn [print_value]. rewrite parse_plain; [apply parse_word_int|].
  intros c Hc. apply print_int_chars, minus_or_digit_plain in Hc. tauto.
Qed.

Lemma roundtrip_bool files pf fill b :
  parse_value files (print_value fill (VBool b)) pf false = Ok (VBool b).
Proof. destruct b; reflexivity. Qed.

Lemma roundtrip_none files pf : files [] = None ->
  parse_value files (print_value [] VNone) pf false = Ok VNone.
Proof. intros H. unfold parse_value. cbn -[parse_word]. unfold parse_word. cbn. destruct pf; [rewrite H|]; reflexivity. Qed.

(** Lists of two or more booleans and integers. *)
Definition simple_scalar (v : value) : Prop :=
  match v with VBool _ | VInt _ => True | _ => False end.

Lemma simple_chars fill v c : simple_scalar v -> In c (print_value fill v) -> ~ space c /\ c <> "%" /\ c <> " ".
Proof.
  destruct v; cbn; try tauto; intros _ H.
  - destruct b; destruct H as [<-|[]]; unfold space; cbn; repeat split; try congruence; lia.
  - apply print_int_chars in H. now apply minus_or_digit_plain.
Qed.

Lemma simple_nonempty fill v : simple_scalar v -> print_value fill v <> [].
Proof.
  destruct v; cbn; try tauto; intros _.
  - destruct b; discriminate.
  - unfold print_int. destruct (Z.ltb_spec n 0); [discriminate|].
    destruct (print_nat_spec n) as [_ [H' _]]; [lia|exact H'].
Qed.

Lemma simple_word fill files v : simple_scalar v -> parse_word files true (print_value fill v) = Ok v.
Proof.
  destruct v; cbn [simple_scalar print_value]; try tauto; intros _.
  - destruct b; reflexivity.
  - apply parse_word_int.
Qed.

Lemma split_join_simple fill vs v : Forall simple_scalar (v :: vs) ->
  split_char " " (join [" "] (map (print_value fill) (v :: vs))) = map (print_value fill) (v :: vs).
Proof.
  revert v. induction vs as [|v' vs IH]; intros v F.
  - cbn [map join]. apply split_char_no. intros Hi. inversion F; subst.
    apply simple_chars in Hi; [tauto|assumption].
  - cbn [map join]. change ([" "] ++ ?x) with (" " :: x).
    inversion F as [|? ? Hv F']; subst.
    rewrite split_char_app.
    + f_equal. apply (IH v'). exact F'.
    + intros Hi. apply simple_chars in Hi; [tauto|exact Hv].
Qed.

Lemma roundtrip_list files pf fill v v' vs : Forall simple_scalar (v :: v' :: vs) ->
  parse_value files (print_value fill (VList (v :: v' :: vs))) pf false = Ok (VList (v :: v' :: vs)).
Proof.
  intros F. set (l := v :: v' :: vs) in *.
  assert (Ep : print_value fill (VList l) = join [" "] (map (print_value (txt "<novalue>")) l)) by reflexivity.
  set (f := print_value (txt "<novalue>")) in *.
  (* the text has no comment sign and no surrounding whitespace *)
  assert (Hch : forall m c, Forall simple_scalar m -> In c (join [" "] (map f m)) ->
            c = " " \/ (~ space c /\ c <> "%")).
  { induction m as [|w m IH]; intros c Fm Hc; [inversion Hc|].
    inversion Fm as [|? ? Hw Fm']; subst. cbn [map join] in Hc.
    destruct (map f m) as [|y ys] eqn:Em.
    - apply simple_chars in Hc; [tauto|exact Hw].
    - apply in_app_or in Hc. destruct Hc as [Hc|Hc]; [apply simple_chars in Hc; [tauto|exact Hw]|].
      apply in_app_or in Hc. destruct Hc as [[Hc|[]]|Hc]; [now left|].
      exact (IH c Fm' Hc). }
  assert (Hhead : forall m w, Forall simple_scalar (w :: m) -> forall c s', join [" "] (map f (w :: m)) = c :: s' -> ~ space c).
  { intros m w Fm c s' E. inversion Fm as [|? ? Hw Fm']; subst.
    destruct (f w) as [|c0 s0] eqn:Ew; [exfalso; exact (simple_nonempty _ _ Hw Ew)|].
    cbn [map join] in E. rewrite Ew in E.
    assert (Hc : c0 = c) by (destruct (map f m); cbn [app] in E; congruence). subst c0.
    apply (simple_chars (txt "<novalue>") w c Hw). fold f. rewrite Ew. now left. }
  assert (Hlast : forall m w, Forall simple_scalar (w :: m) -> forall c s', join [" "] (map f (w :: m)) = s' ++ [c] -> ~ space c).
  { induction m as [|x m IH]; intros w Fm c s' E; inversion Fm as [|? ? Hw Fm']; subst.
    - cbn [map join] in E. apply (simple_chars (txt "<novalue>") w c Hw). fold f. rewrite E.
      apply in_or_app; right; now left.
    - cbn [map join] in E. change (match map f m with [] => f x | _ :: _ => f x ++ [" "] ++ join [" "] (map f m) end)
        with (join [" "] (map f (x :: m))) in E.
      destruct (exists_last (l := join [" "] (map f (x :: m)))) as [u [z Ez]].
      { cbn [map join]. inversion Fm' as [|? ? Hx _]; subst. pose proof (simple_nonempty (txt "<novalue>") x Hx) as Hne.
        fold f in Hne. destruct (map f m); [exact Hne|]. destruct (f x); [congruence|discriminate]. }
      rewrite Ez in E. rewrite !app_assoc in E. apply app_inj_tail in E. destruct E as [_ <-].
      exact (IH x Fm' z u Ez). }
  unfold parse_value. rewrite Ep.
  assert (Ec : clean (join [" "] (map f l)) = join [" "] (map f l)).
  { unfold clean. destruct (has_char_spec "%" (join [" "] (map f l))) as [Hi|_].
    - exfalso. apply (Hch l) in Hi; [|exact F]. destruct Hi as [Hi|Hi]; [discriminate|tauto].
    - apply trimmed_strip. exists [], []. cbn [app]. rewrite app_nil_r.
      repeat split; try constructor; [exact (Hhead _ _ F)|exact (Hlast _ _ F)]. }
  rewrite Ec.
  assert (Hb : has_char " " (join [" "] (map f l)) = true).
  { destruct (has_char_spec " " (join [" "] (map f l))) as [|Hn]; [reflexivity|].
    exfalso. apply Hn. unfold l. cbn [map join]. apply in_or_app. right. now left. }
  rewrite Hb. cbn [orb]. 
  assert (Es : split_char " " (join [" "] (map f l)) = map f l) by exact (split_join_simple _ _ _ F).
  rewrite Es. assert (Em : mapM (fun x => parse_word files true (clean x)) (map f l) = Ok l).
  { clear Ep Ec Hb Es. clearbody l. revert F. induction l as [|w m IH]; intros F; [reflexivity|].
    inversion F as [|? ? Hw Fm]; subst. cbn [map mapM].
    rewrite clean_plain. 2:{ intros c Hc. apply simple_chars in Hc; [tauto|exact Hw]. }
    unfold f at 1. rewrite simple_word by exact Hw. cbn [bind]. rewrite IH by exact Fm. reflexivity. }
  rewrite Em. reflexivity.
Qed.

(** ** classification of words *)
Lemma numeric_char_spec c : reflect (numeric_char c) (is_digit c || is_dot c).
Proof.
  unfold numeric_char, is_dot. destruct (is_digit_spec c) as [H|H]; cbn [orb].
  - constructor; now left.
  - destruct (Ascii.eqb_spec c "."); constructor; [now right|]. unfold digit in H. tauto.
Qed.

Lemma unsigned_float_re_spec s : unsigned_float_re s = true <-> s <> [] /\ Forall numeric_char s.
Proof.
  unfold unsigned_float_re. destruct s as [|c s].
  - split; [discriminate|intros [H _]; congruence].
  - rewrite forallb_forall, Forall_forall. split.
    + intros H. split; [discriminate|]. intros x Hx. specialize (H x Hx).
      destruct (numeric_char_spec x); congruence.
    + intros [_ H] x Hx. specialize (H x Hx). destruct (numeric_char_spec x); tauto.
Qed.

Lemma numeric_not_minus c : numeric_char c -> c <> "-".
Proof. intros [H|H] ->; cbn in H; [lia|discriminate]. Qed.

Lemma float_re_pos c s : c <> "-" -> float_re (c :: s) = unsigned_float_re (c :: s).
Proof.
  intros H. unfold float_re. apply (no_minus_head (c :: s) bool unsigned_float_re (unsigned_float_re (c :: s))).
  intros c' s' E. now injection E as <- <-.
Qed.
Lemma int_re_pos c s : c <> "-" -> int_re (c :: s) = unsigned_int_re (c :: s).
Proof.
  intros H. unfold int_re. apply (no_minus_head (c :: s) bool unsigned_int_re (unsigned_int_re (c :: s))).
  intros c' s' E. now injection E as <- <-.
Qed.
Lemma float_of_pos c s : c <> "-" -> float_of (c :: s) = unsigned_float_of (c :: s).
Proof.
  intros H. unfold float_of.
  apply (no_minus_head (c :: s) (result Q) (fun s' => let* q := unsigned_float_of s' in Ok (Qopp q))
           (unsigned_float_of (c :: s))).
  intros c' s' E. now injection E as <- <-.
Qed.

Lemma float_re_spec s : float_re s = true <-> looks_numeric s.
Proof.
  destruct s as [|c s].
  - split; [discriminate|]. intros [u [Hu [_ [E|E]]]]; [subst; congruence|discriminate].
  - destruct (ascii_dec c "-") as [->|Hc].
    + change (float_re ("-" :: s)) with (unsigned_float_re s). rewrite unsigned_float_re_spec. split.
      * intros [Hn F]. exists s. tauto.
      * intros [u [Hn [F [E|E]]]].
        { subst u. inversion F as [|? ? Hm]; subst. apply numeric_not_minus in Hm. congruence. }
        { inversion E; subst. tauto. }
    + rewrite float_re_pos by exact Hc. rewrite unsigned_float_re_spec. split.
      * intros [Hn F]. exists (c :: s). tauto.
      * intros [u [Hn [F [E|E]]]]; [subst; tauto|]. inversion E; subst; congruence.
Qed.

Lemma int_re_float_re s : int_re s = true -> float_re s = true.
Proof.
  assert (H : forall u, unsigned_int_re u = true -> unsigned_float_re u = true).
  { intros [|c u]; [discriminate|]. unfold unsigned_int_re, unsigned_float_re.
    rewrite !forallb_forall. intros H x Hx. now rewrite H. }
  destruct s as [|c s]; [discriminate|].
  destruct (ascii_dec c "-") as [->|Hc]; [apply H|].
  rewrite int_re_pos, float_re_pos by exact Hc. apply H.
Qed.

Lemma word_plain s : word s -> forall c, In c s -> ~ space c /\ c <> "%".
Proof. intros [_ F]. now rewrite Forall_forall in F. Qed.

Lemma text_verbatim files pf s :
  word s -> s <> ["T"] -> s <> ["F"] -> ~ looks_numeric s ->
  (forall r, s <> txt "None" ++ r) -> (pf = true -> files s = None) ->
  parse_value files s pf false = Ok (VStr s).
Proof.
  intros Hw HT HF Hn HN Hf. rewrite parse_plain by (now apply word_plain). unfold parse_word.
  rewrite !text_eqb_neq by assumption. cbn [orb].
  destruct (int_re s) eqn:Ei.
  { exfalso. apply Hn. apply float_re_spec. now apply int_re_float_re. }
  destruct (float_re s) eqn:Ef.
  { exfalso. apply Hn. now apply float_re_spec. }
  unfold starts_with. destruct (text_eqb_spec (txt "None") (firstn (length (txt "None")) s)) as [E|_].
  { exfalso. apply (HN (skipn (length (txt "None")) s)). rewrite E at 1. now rewrite firstn_skipn. }
  destruct pf.
  - rewrite Hf by reflexivity. destruct s; [destruct Hw; congruence|reflexivity].
  - destruct s; [destruct Hw; congruence|reflexivity].
Qed.

Lemma take_while_digits u : Forall digit u -> take_while is_digit u = u /\ drop_while is_digit u = [].
Proof.
  induction u as [|c u IH]; intros F; [split; reflexivity|]. inversion F as [|? ? Hc Fu]; subst.
  cbn [take_while drop_while]. destruct (is_digit_spec c); [|tauto].
  destruct (IH Fu) as [-> ->]. split; reflexivity.
Qed.

Lemma while_app a d b : Forall digit a -> ~ digit d ->
  take_while is_digit (a ++ d :: b) = a /\ drop_while is_digit (a ++ d :: b) = d :: b.
Proof.
  induction a as [|c a IH]; intros F Hd; cbn [app take_while drop_while].
  - destruct (is_digit_spec d); [tauto|split; reflexivity].
  - inversion F as [|? ? Hc Fa]; subst. destruct (is_digit_spec c); [|tauto].
    destruct (IH Fa Hd) as [-> ->]. split; reflexivity.
Qed.

Lemma while_decomp u : Forall digit u \/
  exists a d b, u = a ++ d :: b /\ Forall digit a /\ ~ digit d.
Proof.
  induction u as [|c u IH]; [left; constructor|].
  destruct (is_digit_spec c) as [Hc|Hc].
  - destruct IH as [F|[a [d [b [-> [Fa Hd]]]]]]; [left; now constructor|].
    right. exists (c :: a), d, b. split; [reflexivity|]. split; [now constructor|exact Hd].
  - right. exists [], c, u. repeat split; [constructor|exact Hc].
Qed.

Definition wf_unsigned (u : text) : Prop :=
  (u <> [] /\ Forall digit u) \/
  exists a b, u = a ++ "." :: b /\ Forall digit a /\ Forall digit b /\ (a <> [] \/ b <> []).

Lemma dot_not_digit : ~ digit ".".
Proof. unfold digit. cbn. lia. Qed.

Lemma dots_unique a b a' b' : Forall digit a -> Forall digit a' ->
  a ++ "." :: b = a' ++ "." :: b' -> a = a' /\ b = b'.
Proof.
  intros Fa Fa' E.
  destruct (while_app a "." b Fa dot_not_digit) as [T D].
  destruct (while_app a' "." b' Fa' dot_not_digit) as [T' D'].
  rewrite E in T, D. rewrite T in T'. rewrite D in D'. inversion D'. tauto.
Qed.

Lemma unsigned_float_of_ok u : (exists q, unsigned_float_of u = Ok q) <-> wf_unsigned u.
Proof.
  unfold unsigned_float_of, wf_unsigned. split.
  - destruct (while_decomp u) as [F|[a [d [b [-> [Fa Hd]]]]]].
    + destruct (take_while_digits u F) as [-> ->]. intros [q H]. left.
      split; [destruct u; discriminate|exact F].
    + destruct (while_app a d b Fa Hd) as [-> ->]. intros [q H].
      unfold is_dot in H. destruct (Ascii.eqb_spec d ".") as [->|]; [|discriminate].
      cbn [andb] in H. destruct (forallb is_digit b) eqn:Eb; [|discriminate].
      right. exists a, b. split; [reflexivity|]. split; [exact Fa|]. split.
      * rewrite forallb_forall in Eb. apply Forall_forall. intros c Hc. specialize (Eb c Hc).
        destruct (is_digit_spec c); congruence.
      * destruct a; [|left; discriminate]. destruct b; [discriminate|right; discriminate].
  - intros [[Hn F]|[a [b [-> [Fa [Fb Hab]]]]]].
    + destruct (take_while_digits u F) as [-> ->]. destruct u; [congruence|]. eexists; reflexivity.
    + destruct (while_app a "." b Fa dot_not_digit) as [-> ->].
      rewrite forallb_digit by exact Fb. cbn [is_dot Ascii.eqb Bool.eqb andb].
      destruct a, b; try (eexists; reflexivity). destruct Hab; congruence.
Qed.

Lemma float_of_ok s : looks_numeric s -> (exists q, float_of s = Ok q) <-> well_formed_number s.
Proof.
  intros [u [Hne [F Hs]]].
  assert (Hu : forall c u', u = c :: u' -> c <> "-").
  { intros c u' ->. inversion F; subst. now apply numeric_not_minus. }
  unfold well_formed_number. destruct Hs as [->| ->].
  - destruct u as [|c u]; [congruence|]. rewrite float_of_pos by (now apply (Hu c u)).
    rewrite unsigned_float_of_ok. split.
    + intros H. exists (c :: u). split; [now left|exact H].
    + intros [v [[E|E] H]]; [subst v; exact H|].
      exfalso. apply (Hu c u eq_refl). congruence.
  - change (float_of ("-" :: u)) with (let* q := unsigned_float_of u in Ok (Qopp q)).
    split.
    + intros [q H]. exists u. split; [now right|]. apply unsigned_float_of_ok.
      destruct (unsigned_float_of u) as [r|e]; [now exists r|discriminate].
    + intros [v [[E|E] H]].
      * exfalso. subst v. destruct H as [[_ H]|[a [b [E [Fa _]]]]].
        { inversion H as [|? ? Hd]; subst. exact (digit_not_minus _ Hd eq_refl). }
        destruct a as [|x a]; cbn [app] in E; [discriminate|]. injection E as <- _.
        inversion Fa as [|? ? Hd]; subst. exact (digit_not_minus _ Hd eq_refl).
      * injection E as <-. apply unsigned_float_of_ok in H. destruct H as [q ->]. now eexists.
Qed.

Lemma float_of_raise s e : float_of s = Raise e -> e = ValueError.
Proof.
  assert (U : forall u e, unsigned_float_of u = Raise e -> e = ValueError).
  { intros u e'. unfold unsigned_float_of. destruct (drop_while is_digit u) as [|d fp].
    - destruct (take_while is_digit u); intros H; now inversion H.
    - destruct (is_dot d && forallb is_digit fp); [|intros H; now inversion H].
      destruct (take_while is_digit u), fp; intros H; now inversion H. }
  destruct s as [|c s]; [apply U|].
  destruct (ascii_dec c "-") as [->|Hc]; [|rewrite float_of_pos by exact Hc; apply U].
  change (float_of ("-" :: s)) with (let* q := unsigned_float_of s in Ok (Qopp q)).
  destruct (unsigned_float_of s) as [q|e'] eqn:E; cbn [bind]; [discriminate|].
  intros H; inversion H; subst. now apply (U s).
Qed.

Lemma looks_not_T s : looks_numeric s -> s <> ["T"] /\ s <> ["F"].
Proof.
  intros [u [_ [F Hs]]]. split; intros ->; destruct Hs as [<-|E];
    try (inversion F as [|? ? [H|H]]; subst; [cbn in H; lia|discriminate]);
    discriminate E.
Qed.

Lemma int_re_wf s : int_re s = true -> well_formed_number s.
Proof.
  assert (U : forall u, unsigned_int_re u = true -> u <> [] /\ Forall digit u).
  { intros [|c u]; [discriminate|]. unfold unsigned_int_re. rewrite forallb_forall. intros H.
    split; [discriminate|]. apply Forall_forall. intros x Hx. specialize (H x Hx).
    destruct (is_digit_spec x); congruence. }
  destruct s as [|c s]; [discriminate|]. unfold well_formed_number.
  destruct (ascii_dec c "-") as [->|Hc].
  - intros H. exists s. split; [now right|]. left. now apply U.
  - rewrite int_re_pos by exact Hc. intros H. exists (c :: s). split; [now left|]. left. now apply U.
Qed.

Lemma parse_word_raise_iff files pf s :
  (exists e, parse_word files pf s = Raise e) <-> malformed_number s.
Proof.
  unfold parse_word, malformed_number. split.
  - destruct (text_eqb s ["T"] || text_eqb s ["F"]); [intros [e H]; discriminate|].
    destruct (int_re s) eqn:Ei; [intros [e H]; discriminate|].
    destruct (float_re s) eqn:Ef.
    + intros [e H]. apply float_re_spec in Ef. split; [exact Ef|]. rewrite <- float_of_ok by exact Ef.
      intros [q Hq]. rewrite Hq in H. discriminate.
    + destruct (starts_with (txt "None") s); [intros [e H]; discriminate|].
      destruct (if pf then files s else None) as [[m|]|]; [| |destruct s]; intros [e H]; discriminate.
  - intros [Hl Hw]. destruct (looks_not_T s Hl) as [HT HF].
    rewrite !text_eqb_neq by assumption. cbn [orb].
    destruct (int_re s) eqn:Ei; [exfalso; apply Hw; now apply int_re_wf|].
    assert (Ef : float_re s = true) by (now apply float_re_spec). rewrite Ef.
    destruct (float_of s) as [q|e] eqn:Eq; [|now exists e].
    exfalso. apply Hw. apply float_of_ok; [exact Hl|]. now exists q.
Qed.

Lemma parse_word_raise_value files pf s e : parse_word files pf s = Raise e -> e = ValueError.
Proof.
  unfold parse_word. destruct (text_eqb s ["T"] || text_eqb s ["F"]); [discriminate|].
  destruct (int_re s); [discriminate|]. destruct (float_re s).
  - destruct (float_of s) as [q|e'] eqn:Eq; cbn [bind]; [discriminate|].
    intros H; inversion H; subst. now apply (float_of_raise s).
  - destruct (starts_with (txt "None") s); [discriminate|].
    destruct (if pf then files s else None) as [[m|]|]; [| |destruct s]; discriminate.
Qed.

Lemma mapM_raise {A B} (f : A -> result B) l e : mapM f l = Raise e -> exists x, In x l /\ f x = Raise e.
Proof.
  induction l as [|x l IH]; cbn [mapM]; [discriminate|].
  destruct (f x) as [y|e'] eqn:E; cbn [bind].
  - destruct (mapM f l) as [ys|e'']; cbn [bind]; [discriminate|].
    intros H. destruct (IH H) as [z [Hz Ez]]. exists z. split; [now right|exact Ez].
  - intros H. inversion H; subst. exists x. split; [now left|exact E].
Qed.

(** Pieces of a split are contiguous parts of the text. *)
Lemma split_char_infix c s w : In w (split_char c s) -> exists a b, s = a ++ w ++ b.
Proof.
  assert (G : exists w0 ws, split_char c s = w0 :: ws /\ (exists b, s = w0 ++ b) /\
            forall w, In w ws -> exists a b, s = a ++ w ++ b).
  { induction s as [|x s IH]; cbn [split_char].
    - exists [], []. split; [reflexivity|]. split; [now exists []|intros ? []].
    - destruct IH as [w0 [ws [E [[b Eb] Hws]]]]. rewrite E.
      destruct (Ascii.eqb c x).
      + exists [], (w0 :: ws). split; [reflexivity|]. split; [now exists (x :: s)|].
        intros w' [<-|Hin]; [exists [x], b; cbn; now rewrite Eb at 1|].
        destruct (Hws _ Hin) as [a' [b' E']]. exists (x :: a'), b'. cbn. now rewrite E' at 1.
      + exists (x :: w0), ws. split; [reflexivity|]. split; [exists b; cbn; now rewrite Eb at 1|].
        intros w' Hin. destruct (Hws _ Hin) as [a' [b' E']]. exists (x :: a'), b'. cbn. now rewrite E' at 1. }
  destruct G as [w0 [ws [E [[b Eb] Hws]]]]. rewrite E. intros [<-|Hin]; [exists [], b; exact Eb|now apply Hws].
Qed.

Lemma clean_infix s : exists a b, s = a ++ clean s ++ b.
Proof.
  unfold clean. destruct (has_char_spec "%" s) as [Hi|_].
  - destruct (first_split _ _ Hi) as [u [v [-> Hu]]]. rewrite split_first_app by exact Hu.
    destruct (strip_trimmed u) as [a [b [E _]]]. exists a, (b ++ "%" :: v).
    rewrite E at 1. now rewrite <- !app_assoc.
  - destruct (strip_trimmed s) as [a [b [E _]]]. exists a, b. exact E.
Qed.

Lemma parse_value_raise files val pf fl e :
  parse_value files val pf fl = Raise e ->
  e = ValueError /\ exists a w b, val = a ++ w ++ b /\ malformed_number w.
Proof.
  unfold parse_value. intros H. destruct (clean_infix val) as [a [b E]].
  destruct (has_char " " (clean val) || fl).
  - destruct (mapM (fun x => parse_word files true (clean x)) (split_char " " (clean val))) as [vs|e'] eqn:Em;
      cbn [bind] in H; [discriminate|]. inversion H; subst e'.
    apply mapM_raise in Em. destruct Em as [x [Hx Ex]].
    split; [now apply (parse_word_raise_value files true (clean x))|].
    destruct (split_char_infix _ _ _ Hx) as [a' [b' E']]. destruct (clean_infix x) as [a'' [b'' E'']].
    exists (a ++ a' ++ a''), (clean x), (b'' ++ b' ++ b). split.
    + rewrite E at 1. rewrite E' at 1. rewrite E'' at 1. now rewrite <- !app_assoc.
    + apply (parse_word_raise_iff files true). now exists e.
  - split; [now apply (parse_word_raise_value files pf (clean val))|].
    exists a, (clean val), b. split; [exact E|]. apply (parse_word_raise_iff files pf). now exists e.
Qed.

Lemma parse_malformed_word files pf w : word w -> malformed_number w ->
  parse_value files w pf false = Raise ValueError.
Proof.
  intros Hw Hm. rewrite parse_plain by (now apply word_plain).
  apply (parse_word_raise_iff files pf) in Hm. destruct Hm as [e He].
  rewrite He. f_equal. now apply (parse_word_raise_value files pf w).
Qed.

(** ** decimal numbers *)
Lemma numeral_digits s : numeral_value s = digits_val s.
Proof.
  induction s as [|c s IH]; [reflexivity|]. cbn [numeral_value]. rewrite digits_val_cons, IH. reflexivity.
Qed.

Lemma digits_aux_length fuel : forall n acc j, (0 <= n < 10 ^ Z.of_nat j)%Z -> 1 <= j ->
  length (digits_aux fuel n acc) <= j + length acc.
Proof.
  induction fuel as [|f IH]; intros n acc j Hn Hj; cbn [digits_aux]; [lia|].
  destruct (Z.eqb_spec (n / 10) 0) as [Hz|Hz]; [cbn [length]; lia|].
  destruct j as [|j]; [lia|]. rewrite Nat2Z.inj_succ, Z.pow_succ_r in Hn by lia.
  assert (H10 : (0 <= n / 10 < 10 ^ Z.of_nat j)%Z).
  { split; [apply Z.div_pos; lia|apply Z.div_lt_upper_bound; lia]. }
  destruct j as [|j]; [cbn in H10; lia|].
  specialize (IH (n / 10)%Z (digit_char (n mod 10) :: acc) (S j) H10 ltac:(lia)). cbn [length] in IH. lia.
Qed.

Lemma print_nat_length n j : (0 <= n < 10 ^ Z.of_nat j)%Z -> 1 <= j -> length (print_nat n) <= j.
Proof. intros H Hj. unfold print_nat. pose proof (digits_aux_length (S (Z.to_nat (Z.log2 n))) n [] j H Hj). cbn [length] in *. lia. Qed.

Lemma pad_zero_spec k n : (0 <= n < 10 ^ Z.of_nat k)%Z -> 1 <= k ->
  let d := pad_left "0" k (print_nat n) in
  length d = k /\ Forall digit d /\ digits_val d = n.
Proof.
  intros H Hk d. unfold d, pad_left. pose proof (print_nat_length n k H Hk) as Hl.
  destruct (print_nat_spec n) as [F [_ V]]; [lia|].
  split; [rewrite app_length, repeat_length; lia|]. split.
  - apply Forall_app. split; [|exact F]. apply Forall_forall. intros c Hc.
    apply repeat_spec in Hc. subst. unfold digit. cbn. lia.
  - rewrite digits_val_app, V. assert (Hz : forall j, digits_val (repeat "0" j) = 0%Z).
    { induction j as [|j IH]; [reflexivity|]. cbn [repeat]. rewrite digits_val_cons, IH.
      change (digit_val "0") with 0%Z. lia. }
    rewrite Hz. lia.
Qed.

Lemma digits_val_inj d : forall d', length d = length d' -> Forall digit d -> Forall digit d' ->
  digits_val d = digits_val d' -> d = d'.
Proof.
  assert (B : forall d, Forall digit d -> (0 <= digits_val d < 10 ^ Z.of_nat (length d))%Z).
  { intros e. induction e as [|c d0 IH]; intros F; [change (0 <= 0 < 1)%Z; lia|]. inversion F as [|? ? Hc F0]; subst.
    specialize (IH F0). rewrite digits_val_cons. cbn [length]. rewrite Nat2Z.inj_succ, Z.pow_succ_r by lia.
    assert (Hd : (0 <= digit_val c <= 9)%Z) by (unfold digit_val; unfold digit in Hc; lia).
    set (P := (10 ^ Z.of_nat (length d0))%Z) in *. nia. }
  induction d as [|c d0 IH]; intros [|c' d0'] Hl F F' E; cbn [length] in Hl; try lia; [reflexivity|].
  inversion F as [|? ? Hc F0]; subst. inversion F' as [|? ? Hc' F0']; subst.
  rewrite !digits_val_cons in E. injection Hl as Hl. rewrite <- Hl in E.
  pose proof (B d0 F0) as B0. pose proof (B d0' F0') as B0'. rewrite <- Hl in B0'.
  assert (Ed : digit_val c = digit_val c') by nia. rewrite Ed in E.
  f_equal; [|apply IH; try assumption; lia].
  unfold digit_val in Ed. rewrite <- (ascii_nat_embedding c), <- (ascii_nat_embedding c'). f_equal. lia.
Qed.

(** ** backups *)
Lemma backup_name_candidate fname n : (0 <= n <= 999)%Z -> backup_candidate fname n (backup_name fname n).
Proof.
  intros H. unfold backup_name, backup_candidate, print_int.
  destruct (Z.ltb_spec n 0); [lia|].
  destruct (pad_zero_spec 3 n) as [L [F V]]; [cbn; lia|lia|].
  exists (pad_left "0" 3 (print_nat n)). rewrite numeral_digits. tauto.
Qed.

Lemma backup_candidate_fun fname n s s' : backup_candidate fname n s -> backup_candidate fname n s' -> s = s'.
Proof.
  intros [d [L [F [V ->]]]] [d' [L' [F' [V' ->]]]]. rewrite numeral_digits in V, V'.
  do 2 f_equal. apply digits_val_inj; congruence.
Qed.

Lemma backup_loop_spec ex fname todo : forall n cur,
  let b := backup_loop ex fname todo n cur in
  (exists k, (n <= k < n + Z.of_nat todo)%Z /\ b = backup_name fname k /\ ex b = false /\
     forall j, (n <= j < k)%Z -> ex (backup_name fname j) = true)
  \/ ((forall j, (n <= j < n + Z.of_nat todo)%Z -> ex (backup_name fname j) = true) /\
      b = match todo with O => cur | S t => backup_name fname (n + Z.of_nat t) end).
Proof.
  induction todo as [|t IH]; intros n cur; cbn [backup_loop]; cbv zeta.
  - right. split; [lia|reflexivity].
  - destruct (ex (backup_name fname n)) eqn:E.
    + destruct (IH (n + 1)%Z (backup_name fname n)) as [[k [Hk [Hb [He Hj]]]]|[Hall Hb]].
      * left. exists k. split; [lia|]. split; [exact Hb|]. split; [exact He|].
        intros j Hj'. destruct (Z.eq_dec j n) as [->|]; [exact E|apply Hj; lia].
      * right. split.
        { intros j Hj. destruct (Z.eq_dec j n) as [->|]; [exact E|apply Hall; lia]. }
        rewrite Hb. destruct t; f_equal; lia.
    + left. exists n. repeat split; try lia. exact E.
Qed.

Lemma backup_loop_999 ex fname :
  match get_backupfilename ex fname with
  | Ok b => exists k, (1 <= k <= 999)%Z /\ b = backup_name fname k /\ ex b = false /\
              forall j, (1 <= j < k)%Z -> ex (backup_name fname j) = true
  | Raise e => e = ValueError /\ forall j, (1 <= j <= 999)%Z -> ex (backup_name fname j) = true
  end.
Proof.
  unfold get_backupfilename.
  assert (E : exists t, 999 = S t /\ Z.of_nat t = 998%Z) by (exists 998; split; [reflexivity|reflexivity]).
  destruct E as [t [-> Ht]]. pose proof (backup_loop_spec ex fname (S t) 1 []) as H.
  cbv zeta in H. set (b := backup_loop ex fname (S t) 1 []) in *. clearbody b.
  destruct H as [[k [Hk [Hb [He Hj]]]]|[Hall Hb]].
  - rewrite He. exists k. repeat split; try lia; assumption.
  - assert (Hex : ex b = true) by (rewrite Hb; apply Hall; lia). rewrite Hex.
    split; [reflexivity|]. intros j Hj. apply Hall. lia.
Qed.

Lemma backup_first_free ex fname b :
  get_backupfilename ex fname = Ok b <->
  exists n, (1 <= n <= 999)%Z /\ backup_candidate fname n b /\ ex b = false /\
    forall m s, (1 <= m < n)%Z -> backup_candidate fname m s -> ex s = true.
Proof.
  pose proof (backup_loop_999 ex fname) as H. split.
  - intros E. rewrite E in H. destruct H as [k [Hk [Hb [He Hj]]]]. exists k.
    split; [exact Hk|]. split; [rewrite Hb; apply backup_name_candidate; lia|]. split; [exact He|].
    intros m s Hm Hs. rewrite (backup_candidate_fun fname m s (backup_name fname m)); [apply Hj; lia|exact Hs|].
    apply backup_name_candidate; lia.
  - intros [n [Hn [Hb [He Hall]]]].
    assert (Eb : b = backup_name fname n).
    { apply (backup_candidate_fun fname n); [exact Hb|apply backup_name_candidate; lia]. }
    destruct (get_backupfilename ex fname) as [b'|e].
    + destruct H as [k [Hk [Hb' [He' Hj]]]].
      destruct (Z.lt_trichotomy k n) as [Hlt|[->|Hgt]].
      * assert (ex b' = true); [|congruence].
        apply (Hall k); [lia|]. rewrite Hb'. apply backup_name_candidate; lia.
      * congruence.
      * assert (ex b = true); [|congruence]. rewrite Eb. apply Hj; lia.
    + destruct H as [_ Hj]. assert (ex b = true); [|congruence]. rewrite Eb. apply Hj; lia.
Qed.

Lemma backup_exhausted ex fname :
  (forall n s, (1 <= n <= 999)%Z -> backup_candidate fname n s -> ex s = true) <->
  get_backupfilename ex fname = Raise ValueError.
Proof.
  pose proof (backup_loop_999 ex fname) as H. split.
  - intros Hall. destruct (get_backupfilename ex fname) as [b|e].
    + destruct H as [k [Hk [Hb [He _]]]]. assert (ex b = true); [|congruence].
      apply (Hall k); [lia|]. rewrite Hb. apply backup_name_candidate; lia.
    + now destruct H as [-> _].
  - intros E. rewrite E in H. destruct H as [_ Hj]. intros n s Hn Hs.
    rewrite (backup_candidate_fun fname n s (backup_name fname n)); [apply Hj; lia|exact Hs|].
    apply backup_name_candidate; lia.
Qed.

Lemma backup_preserves d fname d' :
  backup d fname = Ok d' ->
  (forall n c, dget n d = Some c -> dget n d' = Some c) /\
  (forall c, dget fname d = Some c -> exists b, dget b d = None /\ dget b d' = Some c /\
      forall n, n <> b -> dget n d' = dget n d) /\
  (dget fname d = None -> d' = d).
Proof.
  unfold backup. intros H. destruct (dget fname d) as [c|] eqn:Ef.
  - inv_bind H. inversion H; subst d'. apply backup_first_free in E.
    destruct E as [n [_ [_ [He _]]]]. unfold dmem in He.
    destruct (dget a d) eqn:Ea; [discriminate|]. split; [|split].
    + intros m c' Hm. rewrite dget_dset_other; [exact Hm|]. intros ->. congruence.
    + intros c' Hc. inversion Hc; subst c'. exists a. split; [exact Ea|].
      split; [apply dget_dset_same|]. intros m Hm. now apply dget_dset_other.
    + discriminate.
  - inversion H; subst. split; [tauto|]. split; [discriminate|reflexivity].
Qed.

(** ** write then read *)
Lemma plain_value_chars files pf v c : plain_value files pf v -> In c (print_value [] v) ->
  c <> "=" /\ c <> "%" /\ ~ space c.
Proof.
  destruct v; cbn [plain_value print_value]; try tauto.
  - intros _. destruct b; intros [<-|[]]; unfold space; cbn; repeat split; try congruence; lia.
  - intros _ H. apply print_int_chars in H. pose proof (minus_or_digit_plain c H) as [H1 [H2 H3]].
    split; [|tauto]. destruct H as [H|H]; [intros ->; unfold digit in H; cbn in H; lia|subst; discriminate].
  - intros [[_ F] [He _]] H. rewrite Forall_forall in F. destruct (F c H). split; [intros ->; tauto|tauto].
Qed.

Lemma blank_space : space " ".
Proof. unfold space. cbn. lia. Qed.

Lemma clean_lead_blank s : clean (" " :: s) = clean s.
Proof.
  unfold clean. assert (E : has_char "%" (" " :: s) = has_char "%" s) by reflexivity. rewrite E.
  destruct (has_char_spec "%" s) as [Hi|_]; [|reflexivity].
  destruct (first_split _ _ Hi) as [a [b [-> Ha]]].
  change (" " :: a ++ "%" :: b) with ((" " :: a) ++ "%" :: b).
  rewrite !split_first_app; [reflexivity|exact Ha|]. intros [H|H]; [discriminate|tauto].
Qed.

Lemma plain_value_parse files pf v : files [] = None -> plain_value files pf v ->
  parse_value files (" " :: print_value [] v) pf false = Ok v.
Proof.
  intros H0 H. unfold parse_value. rewrite clean_lead_blank.
  change (parse_value files (print_value [] v) pf false = Ok v).
  destruct v; cbn [plain_value] in H; try tauto.
  - now apply roundtrip_none.
  - apply roundtrip_bool.
  - apply roundtrip_int.
  - destruct H as [Hw [_ [HT [HF [Hn [HN Hf]]]]]]. now apply text_verbatim.
Qed.

Lemma read_written_line files pf p w k v : files [] = None -> plain_key k -> plain_value files pf v ->
  read_line files pf p (pad_left " " w k ++ txt " = " ++ print_value [] v) = Ok (dset k v p).
Proof.
  intros H0 [[Hne Fk] Hk] Hv. unfold read_line.
  set (line := pad_left " " w k ++ txt " = " ++ print_value [] v).
  assert (El : line = (pad_left " " w k ++ [" "]) ++ "=" :: (" " :: print_value [] v)).
  { unfold line. rewrite <- app_assoc. reflexivity. }
  rewrite Forall_forall in Fk.
  assert (Hpad : forall c, In c (pad_left " " w k) -> c = " " \/ In c k).
  { intros c Hc. unfold pad_left in Hc. apply in_app_or in Hc. destruct Hc as [Hc|Hc]; [|now right].
    left. now apply repeat_spec in Hc. }
  assert (Hneq : ~ In "=" (pad_left " " w k ++ [" "])).
  { intros Hc. apply in_app_or in Hc. destruct Hc as [Hc|[Hc|[]]]; [|discriminate].
    apply Hpad in Hc. destruct Hc as [Hc|Hc]; [discriminate|tauto]. }
  assert (Hvq : ~ In "=" (" " :: print_value [] v)).
  { intros [Hc|Hc]; [discriminate|]. apply (plain_value_chars files pf) in Hc; [tauto|exact Hv]. }
  assert (Hk' : strip (pad_left " " w k ++ [" "]) = k).
  { apply trimmed_strip. exists (repeat " " (w - length k)), [" "].
    unfold pad_left. rewrite <- app_assoc. split; [reflexivity|]. split.
    - apply Forall_forall. intros c Hc. apply repeat_spec in Hc. subst. apply blank_space.
    - split; [constructor; [apply blank_space|constructor]|]. split; intros c s' ->.
      + apply Fk. now left.
      + apply Fk. apply in_or_app. right. now left. }
  assert (Ha : assigns line k (" " :: print_value [] v)).
  { split.
    - intros [a [r [E Fa]]].
      assert (Hp : In "%" line) by (rewrite E; apply in_or_app; right; now left).
      rewrite El in Hp. apply in_app_or in Hp. destruct Hp as [Hp|Hp].
      + apply in_app_or in Hp. destruct Hp as [Hp|[Hp|[]]]; [|discriminate].
        apply Hpad in Hp. destruct Hp as [Hp|Hp]; [discriminate|]. apply Fk in Hp. tauto.
      + destruct Hp as [Hp|[Hp|Hp]]; [discriminate|discriminate|].
        apply (plain_value_chars files pf) in Hp; [tauto|exact Hv].
    - exists (pad_left " " w k ++ [" "]). split; [exact Hneq|]. split.
      + rewrite <- Hk' at 2. apply strip_trimmed.
      + split; [exact Hvq|]. now left. }
  apply assigns_split in Ha. destruct Ha as [-> [-> _]]. cbn [andb negb].
  rewrite El, split_char_app, split_char_no by assumption.
  rewrite plain_value_parse by assumption. cbn [bind]. now rewrite Hk'.
Qed.

Lemma dset_append {V} (k : text) (v : V) p : ~ In k (dkeys p) -> dset k v p = p ++ [(k, v)].
Proof.
  unfold dkeys. induction p as [|[k' v'] p IH]; intros H; cbn [dset app]; [reflexivity|].
  rewrite text_eqb_neq. { f_equal. apply IH. intros Hi; apply H; now right. }
  intros ->. apply H. now left.
Qed.

Lemma plain_config_line files pf w kv : plain_value files pf (snd kv) ->
  config_line w kv = pad_left " " w (fst kv) ++ txt " = " ++ print_value [] (snd kv).
Proof.
  destruct kv as [k v]. cbn [fst snd config_line]. intros H.
  assert (E : iterable v = false) by (destruct v; cbn in *; tauto). rewrite E, andb_false_r. reflexivity.
Qed.

Lemma write_read_lines files pf w p : files [] = None ->
  Forall (fun kv => plain_key (fst kv) /\ plain_value files pf (snd kv)) p ->
  forall p0, NoDup (dkeys (p0 ++ p)) ->
  read_lines files pf p0 (map (config_line w) p) = Ok (p0 ++ p).
Proof.
  intros H0. induction p as [|[k v] p IH]; intros F p0 Hnd; cbn [map read_lines].
  - now rewrite app_nil_r.
  - inversion F as [|? ? [Hk Hv] F']; subst. rewrite (plain_config_line files pf) by exact Hv. cbn [fst snd] in *.
    rewrite read_written_line by assumption. cbn [bind].
    assert (Hni : ~ In k (dkeys p0)).
    { unfold dkeys in *. rewrite map_app in Hnd. cbn [map fst] in Hnd. apply NoDup_remove_2 in Hnd.
      intros Hi. apply Hnd. apply in_or_app. now left. }
    rewrite dset_append by exact Hni. rewrite IH; [now rewrite <- app_assoc|exact F'|].
    now rewrite <- app_assoc.
Qed.

Lemma header_silent date l : In l (config_header date) -> forall k v, ~ assigns l k v.
Proof.
  intros H k v [Hc [key [Hk [Ht [Hv Hl]]]]].
  destruct H as [<-|[<-|[<-|[<-|[<-|[]]]]]];
    try (apply Hc; exists []; eexists; split; [reflexivity|constructor]).
  destruct Hl as [E|[more E]]; destruct key; discriminate E.
Qed.

Lemma read_lines_silent files pf ls1 : (forall l, In l ls1 -> forall k v, ~ assigns l k v) ->
  forall ls2 p, read_lines files pf p (ls1 ++ ls2) = read_lines files pf p ls2.
Proof.
  induction ls1 as [|l ls1 IH]; intros H ls2 p; [reflexivity|].
  pose proof (read_lines_insert files pf l (H l (or_introl eq_refl)) [] (ls1 ++ ls2) p) as E.
  cbn [app] in E |- *. rewrite E. apply IH. intros l' Hl. apply H. now right.
Qed.

Lemma write_read_config files nc d pf date p ls :
  files [] = None -> NoDup (dkeys p) ->
  Forall (fun kv => plain_key (fst kv) /\ plain_value files pf (snd kv)) p ->
  (forall k, In k derived_parameters -> ~ In k (dkeys p)) ->
  write_configfile true date p = Ok ls ->
  exists p', read_configfile files nc d (Some ls) pf false = Ok p' /\ forall k, dget k p' = dget k p.
Proof.
  intros H0 Hnd F Hd Hw. unfold write_configfile in Hw. cbn [negb] in Hw.
  destruct p as [|kv0 p0]; [discriminate|]. set (p := kv0 :: p0) in *. clearbody p.
  set (w := fold_right _ _ _) in Hw. clearbody w. apply Ok_inj in Hw. subst ls.
  pose proof (sort_by_perm fst p) as Hp.
  assert (Hnd' : NoDup (dkeys (sort_by fst p))).
  { unfold dkeys in *. eapply Permutation.Permutation_NoDup; [|exact Hnd].
    apply Permutation.Permutation_map, Permutation.Permutation_sym, Hp. }
  assert (Hg : forall k, dget k (sort_by fst p) = dget k p).
  { intros k. apply dget_perm; assumption. }
  exists (sort_by fst p). split; [|exact Hg].
  unfold read_configfile. rewrite read_lines_silent by apply header_silent.
  rewrite (write_read_lines files pf _ (sort_by fst p) H0).
  2:{ eapply Permutation.Permutation_Forall; [apply Permutation.Permutation_sym, Hp|exact F]. }
  2:{ exact Hnd'. }
  cbn [app bind].
  assert (N : forall k, In k derived_parameters -> dget k (sort_by fst p) = None).
  { intros k Hk. rewrite Hg. apply dget_None_keys. now apply Hd. }
  unfold finish_grain. rewrite N by (cbn; tauto). cbn [bind].
  unfold finish_output. rewrite N by (cbn; tauto). cbn [bind].
  unfold finish_h. rewrite N by (cbn; tauto). cbn [bind].
  unfold finish_fences. rewrite N by (cbn; tauto). cbn [bind].
  unfold finish_nsave. rewrite N by (cbn; tauto). reflexivity.
Qed.

Lemma write_config_python3 date p : write_configfile false date p = Raise AttributeError.
Proof. reflexivity. Qed.

(** ** printing floats *)
From Coq Require Import Lqa.
Lemma round_close x : (Qabs (inject_Z (Qround_half_even x) - x) <= 1#2)%Q.
Proof.
  unfold Qround_half_even. pose proof (Qfloor_le x) as H1. pose proof (Qlt_floor x) as H2.
  rewrite inject_Z_plus in H2. change (inject_Z 1) with 1%Q in H2.
  destruct (Qle_bool (x - inject_Z (Qfloor x)) (1#2)) eqn:E.
  - apply Qle_bool_iff in E. destruct (Qeq_bool (x - inject_Z (Qfloor x)) (1#2)) eqn:E2.
    + apply Qeq_bool_iff in E2. destruct (Z.even (Qfloor x)); rewrite ?inject_Z_plus;
      change (inject_Z 1) with 1%Q; apply Qabs_case; intros; lra.
    + apply Qabs_case; intros; lra.
  - assert (~ (x - inject_Z (Qfloor x) <= 1#2)%Q) as E'.
    { intros H. apply Qle_bool_iff in H. congruence. }
    rewrite inject_Z_plus. change (inject_Z 1) with 1%Q. apply Qabs_case; intros; lra.
Qed.

Lemma round_nonneg x : (0 <= x)%Q -> (0 <= Qround_half_even x)%Z.
Proof.
  intros H. unfold Qround_half_even. assert (0 <= Qfloor x)%Z.
  { change 0%Z with (Qfloor 0). now apply Qfloor_resp_le. }
  destruct (Qle_bool _ _); [destruct (Qeq_bool _ _); [destruct (Z.even _)|]|]; lia.
Qed.

Lemma take_drop_all f (s : text) : forallb f s = true -> take_while f s = s.
Proof.
  induction s as [|c s IH]; intros H; [reflexivity|]. cbn [forallb] in H. cbn [take_while].
  apply andb_true_iff in H. destruct H as [-> H]. now rewrite IH.
Qed.

Lemma Qpow10_pos k : (0 < inject_Z (10 ^ Z.of_nat k))%Q.
Proof. change 0%Q with (inject_Z 0). rewrite <- Zlt_Qlt. lia. Qed.

Lemma pow10_Z k : 1 <= k -> Z.pos (pow10 k) = (10 ^ Z.of_nat k)%Z.
Proof.
  intros H. unfold pow10. rewrite Pos2Z.inj_pow. f_equal.
  rewrite <- (Nat2Pos.id k) at 2 by lia. now rewrite positive_nat_Z.
Qed.

Lemma fixed_digits k m : 1 <= k -> (0 <= m)%Z ->
  let ip := print_nat (m / 10 ^ Z.of_nat k) in
  let fp := pad_left "0" k (print_nat (m mod 10 ^ Z.of_nat k)) in
  Forall digit ip /\ ip <> [] /\ Forall digit fp /\ fp <> [] /\
  exists r, unsigned_float_of (ip ++ "." :: fp) = Ok r /\ (r * inject_Z (10 ^ Z.of_nat k) == inject_Z m)%Q.
Proof.
  intros Hk Hm ip fp. assert (Hp : (0 < 10 ^ Z.of_nat k)%Z) by lia.
  destruct (print_nat_spec (m / 10 ^ Z.of_nat k)) as [Fi [Ni Vi]]; [now apply Z.div_pos|].
  destruct (pad_zero_spec k (m mod 10 ^ Z.of_nat k)) as [Lf [Ff Vf]]; [apply Z.mod_pos_bound; lia|exact Hk|].
  fold ip in Fi, Ni, Vi. fold fp in Lf, Ff, Vf. clearbody ip fp.
  assert (Nf : fp <> []) by (destruct fp; [cbn in Lf; lia|discriminate]).
  repeat (split; [assumption|]).
  unfold unsigned_float_of. destruct (while_app ip "." fp Fi dot_not_digit) as [-> ->].
  rewrite forallb_digit by exact Ff. cbn [is_dot Ascii.eqb Bool.eqb andb].
  destruct ip as [|a ip']; [congruence|]. destruct fp as [|b fp']; [congruence|].
  eexists. split; [reflexivity|]. rewrite digits_val_app, Vi, Vf, Lf.
  rewrite Z.mul_comm, <- Z.div_mod by lia.
  unfold Qeq, Qmult, inject_Z. cbn [Qnum Qden]. rewrite Z.mul_1_r, Pos.mul_1_r.
  rewrite pow10_Z by exact Hk. ring.
Qed.

Definition float_chars (c : ascii) : Prop := digit c \/ c = "-" \/ c = ".".

Lemma print_fixed_parse k q files pf : 1 <= k ->
  exists r, parse_word files pf (print_fixed k q) = Ok (VFloat r) /\
    decimals k r /\ (Qabs (r - q) * inject_Z (10 ^ Z.of_nat k) <= 1#2)%Q /\
    Forall float_chars (print_fixed k q).
Proof.
  intros Hk. unfold print_fixed.
  set (neg := negb (Qle_bool 0 q)). set (a := if neg then Qopp q else q).
  assert (Ha : (0 <= a)%Q).
  { unfold a, neg. destruct (Qle_bool 0 q) eqn:E; cbn [negb].
    - now apply Qle_bool_iff.
    - assert (~ (0 <= q)%Q) by (intros H; apply Qle_bool_iff in H; congruence). lra. }
  set (P := inject_Z (10 ^ Z.of_nat k)).
  assert (HP : (0 < P)%Q) by apply Qpow10_pos.
  set (m := Qround_half_even (a * P)).
  assert (Hm : (0 <= m)%Z) by (apply round_nonneg; nra).
  pose proof (round_close (a * P)) as Hc. fold m in Hc.
  destruct (fixed_digits k m Hk Hm) as [Fi [Ni [Ff [Nf [r [Hr Er]]]]]]. fold P in Er.
  set (ip := print_nat (m / 10 ^ Z.of_nat k)) in *. set (fp := pad_left "0" k (print_nat (m mod 10 ^ Z.of_nat k))) in *.
  clearbody ip fp. set (u := ip ++ "." :: fp).
  assert (Fu : Forall numeric_char u).
  { unfold u. apply Forall_app. split.
    - eapply Forall_impl; [|exact Fi]. intros c H; now left.
    - constructor; [now right|]. eapply Forall_impl; [|exact Ff]. intros c H; now left. }
  assert (Nu : u <> []) by (unfold u; destruct ip; discriminate).
  assert (Hui : unsigned_int_re u = false).
  { unfold unsigned_int_re. destruct u as [|c u'] eqn:Eu; [reflexivity|]. rewrite <- Eu.
    destruct (forallb is_digit u) eqn:E; [|reflexivity]. rewrite forallb_forall in E.
    specialize (E "."). unfold u in E. rewrite <- E; [reflexivity|]. apply in_or_app; right; now left. }
  assert (Hhead : forall c u', u = c :: u' -> c <> "-").
  { intros c u' E. rewrite E in Fu. inversion Fu; subst. now apply numeric_not_minus. }
  assert (Hch : Forall float_chars ((if neg then ["-"] else []) ++ ip ++ "." :: fp)).
  { apply Forall_app. split.
    - destruct neg; [constructor; [right; now left|constructor]|constructor].
    - change (Forall float_chars u). eapply Forall_impl; [|exact Fu]. intros c [H|H]; [now left|right; now right]. }
  assert (HTF : forall w, Forall float_chars w -> text_eqb w ["T"] = false /\ text_eqb w ["F"] = false).
  { intros w F. split; apply text_eqb_neq; intros ->; inversion F as [|? ? H]; subst;
      destruct H as [H|[H|H]]; try discriminate; unfold digit in H; cbn in H; lia. }
  fold u in Hch |- *. fold u in Hr.
  destruct neg eqn:En; cbn [app] in *.
  - exists (- r)%Q. unfold parse_word. destruct (HTF _ Hch) as [-> ->]. cbn [orb].
    change (int_re ("-" :: u)) with (unsigned_int_re u). rewrite Hui.
    change (float_re ("-" :: u)) with (unsigned_float_re u).
    rewrite (proj2 (unsigned_float_re_spec u)) by tauto.
    change (float_of ("-" :: u)) with (let* q := unsigned_float_of u in Ok (Qopp q)). rewrite Hr.
    split; [reflexivity|]. split; [exists (- m)%Z; rewrite inject_Z_opp; fold P; lra|]. split; [|exact Hch].
    unfold a in Hc. revert Hc. apply (Qabs_case (inject_Z m - _)); intros H1 H2; apply Qabs_case; intros H3; fold P; nra.
  - exists r. unfold parse_word. destruct (HTF _ Hch) as [-> ->]. cbn [orb].
    destruct u as [|c u'] eqn:Eu; [congruence|]. specialize (Hhead c u' eq_refl).
    rewrite int_re_pos, float_re_pos, float_of_pos by exact Hhead. rewrite Hui.
    rewrite (proj2 (unsigned_float_re_spec (c :: u'))) by tauto. rewrite Hr.
    split; [reflexivity|]. split; [exists m; exact Er|]. split; [|exact Hch].
    unfold a in Hc. revert Hc. apply (Qabs_case (inject_Z m - _)); intros H1 H2; apply Qabs_case; intros H3; fold P; nra.
Qed.

Lemma float_chars_plain c : float_chars c -> ~ space c /\ c <> "%".
Proof.
  intros [H|[H|H]]; [|subst; unfold space; cbn; split; [lia|discriminate]..].
  pose proof (minus_or_digit_plain c (or_introl H)). tauto.
Qed.

Lemma print_float_accuracy files pf fill q : 
  exists r, parse_value files (print_value fill (VFloat q)) pf false = Ok (VFloat r) /\
    ((1 <= q)%Q -> decimals 2 r /\ (Qabs (r - q) <= 1#200)%Q) /\
    ((q < 1)%Q -> decimals 6 r /\ (Qabs (r - q) <= 1#2000000)%Q).
Proof.
  cbn [print_value]. destruct (Qle_bool 1 q) eqn:E.
  - apply Qle_bool_iff in E. destruct (print_fixed_parse 2 q files pf) as [r [Hp [Hd [Ha Hf]]]]; [lia|].
    exists r. rewrite parse_plain.
    + split; [exact Hp|]. split; [intros _; split; [exact Hd|]|intros; lra].
      change (inject_Z (10 ^ Z.of_nat 2)) with 100%Q in Ha. lra.
    + intros c Hc. rewrite Forall_forall in Hf. apply float_chars_plain; auto.
  - assert (~ (1 <= q)%Q) by (intros H; apply Qle_bool_iff in H; congruence).
    destruct (print_fixed_parse 6 q files pf) as [r [Hp [Hd [Ha Hf]]]]; [lia|].
    exists r. rewrite parse_plain.
    + split; [exact Hp|]. split; [intros; lra|intros _; split; [exact Hd|]].
      change (inject_Z (10 ^ Z.of_nat 6)) with 1000000%Q in Ha. lra.
    + intros c Hc. rewrite Forall_forall in Hf. apply float_chars_plain; auto.
Qed.

Lemma decimals_close k a b : decimals k a -> decimals k b ->
  (Qabs (a - b) * inject_Z (10 ^ Z.of_nat k) <= 1#2)%Q -> (a == b)%Q.
Proof.
  intros [m Em] [n En] H. set (P := inject_Z (10 ^ Z.of_nat k)) in *.
  assert (HP : (0 < P)%Q) by apply Qpow10_pos.
  assert (Hmn : (Qabs (inject_Z (m - n)) <= 1#2)%Q).
  { unfold Z.sub. rewrite inject_Z_plus, inject_Z_opp, <- Em, <- En.
    setoid_replace (a * P + - (b * P))%Q with ((a - b) * P)%Q by ring.
    rewrite Qabs_Qmult. rewrite (Qabs_pos P) by lra. exact H. }
  assert (E : (m - n = 0)%Z).
  { unfold Qabs, inject_Z, Qle in Hmn. cbn [Qnum Qden] in Hmn. lia. }
  assert (E' : m = n) by lia. subst n. nra.
Qed.

Lemma float_roundtrip_exact files pf fill q :
  ((1 <= q)%Q -> decimals 2 q) -> ((q < 1)%Q -> decimals 6 q) ->
  exists r, parse_value files (print_value fill (VFloat q)) pf false = Ok (VFloat r) /\ (r == q)%Q.
Proof.
  intros H2 H6. destruct (print_float_accuracy files pf fill q) as [r [Hp [A2 A6]]].
  exists r. split; [exact Hp|]. destruct (Qlt_le_dec q 1) as [Hq|Hq].
  - destruct (A6 Hq) as [Hd Ha]. apply (decimals_close 6 r q Hd (H6 Hq)).
    change (inject_Z (10 ^ Z.of_nat 6)) with 1000000%Q. lra.
  - destruct (A2 Hq) as [Hd Ha]. apply (decimals_close 2 r q Hd (H2 Hq)).
    change (inject_Z (10 ^ Z.of_nat 2)) with 100%Q. lra.
Qed.
