(** Names of files and lists of words. *)
From Coq Require Import Lia.
From Verif Require Import Base Config_Model Config_Spec Config_Proofs Derived_Spec.
Local Open Scope char_scope.

Lemma name_like_word files pf s : name_like s ->
  parse_value files s pf false =
  Ok (match (if pf then files s else None) with Some (Some m) => VFile m | _ => VStr s end).
Proof.
  intros [Hw [HT [HF [Hn HN]]]]. rewrite parse_plain by (now apply word_plain). unfold parse_word.
  rewrite !text_eqb_neq by assumption. cbn [orb].
  destruct (int_re s) eqn:Ei.
  { exfalso. apply Hn. apply float_re_spec. now apply int_re_float_re. }
  destruct (float_re s) eqn:Ef.
  { exfalso. apply Hn. now apply float_re_spec. }
  unfold starts_with. destruct (text_eqb_spec (txt "None") (firstn (length (txt "None")) s)) as [E|_].
  { exfalso. apply (HN (skipn (length (txt "None")) s)). rewrite E at 1. now rewrite firstn_skipn. }
  destruct (if pf then files s else None) as [[m|]|]; [reflexivity|reflexivity|].
  destruct s; [destruct Hw; congruence|reflexivity].
Qed.
Lemma c153_file files s m : name_like s -> files s = Some (Some m) -> parse_value files s true false = Ok (VFile m).
Proof. intros N F. rewrite name_like_word by exact N. now rewrite F. Qed.
Lemma c153_unreadable files s : name_like s -> files s = Some None -> parse_value files s true false = Ok (VStr s).
Proof. intros N F. rewrite name_like_word by exact N. now rewrite F. Qed.
Lemma c153_missing files s : name_like s -> files s = None -> parse_value files s true false = Ok (VStr s).
Proof. intros N F. rewrite name_like_word by exact N. now rewrite F. Qed.

Lemma c154_single f1 f2 raw : has_char " " (clean raw) = false -> same_text f1 f2 raw.
Proof. intros H. unfold same_text, parse_value. rewrite H. reflexivity. Qed.

Lemma split_blanks n s : split_char " " (repeat " " n ++ s) = repeat [] n ++ split_char " " s.
Proof. induction n as [|n IH]; [reflexivity|]. cbn [repeat app]. cbn. now rewrite IH. Qed.

Lemma word_no_blank w : word w -> ~ In " " w.
Proof. intros W H. destruct (word_plain w W " " H) as [A _]. apply A. right. cbn. lia. Qed.

Lemma split_items l : forall w, word w -> Forall (fun x => word (snd x)) l ->
  split_char " " (items w l) = w :: flat_map (fun x => repeat [] (fst x) ++ [snd x]) l.
Proof.
  induction l as [|[n w'] l IH]; intros w W F.
  - cbn. apply split_char_no, word_no_blank, W.
  - inversion F as [|? ? W' F']; subst. cbn [items repeat app flat_map fst snd].
    rewrite split_char_app by (apply word_no_blank, W). rewrite split_blanks, (IH w' W' F').
    f_equal. now rewrite <- app_assoc.
Qed.

Lemma items_chars l : forall w, word w -> Forall (fun x => word (snd x)) l ->
  forall c, In c (items w l) -> c = " " \/ (~ space c /\ c <> "%").
Proof.
  induction l as [|[n w'] l IH]; intros w W F c H.
  - right. exact (word_plain w W c H).
  - inversion F as [|? ? W' F']; subst. cbn [items] in H. apply in_app_or in H. destruct H as [H|H].
    + right. exact (word_plain w W c H).
    + apply in_app_or in H. destruct H as [H|H]; [left; apply repeat_spec in H; exact H|exact (IH w' W' F' c H)].
Qed.
Lemma items_head l w : word w -> forall c s, items w l = c :: s -> ~ space c.
Proof.
  intros W c s E. destruct W as [N F]. destruct w as [|c0 w]; [congruence|].
  assert (c0 = c) by (destruct l as [|[n w'] l]; cbn in E; congruence). subst c0.
  inversion F; tauto.
Qed.
Lemma items_ne l w : word w -> items w l <> [].
Proof. intros [N _]. destruct w; [congruence|]. destruct l as [|[n w'] l]; discriminate. Qed.
Lemma items_last l : forall w, word w -> Forall (fun x => word (snd x)) l ->
  forall c s, items w l = s ++ [c] -> ~ space c.
Proof.
  induction l as [|[n w'] l IH]; intros w W F c s E.
  - cbn in E. apply (word_plain w W c). rewrite E. apply in_or_app. right. now left.
  - inversion F as [|? ? W' F']; subst. cbn [items] in E.
    destruct (exists_last (items_ne l w' W')) as [u [z Ez]]. cbn [snd] in *.
    rewrite Ez, !app_assoc in E. apply app_inj_tail in E. destruct E as [_ <-]. exact (IH w' W' F' z u Ez).
Qed.
Lemma clean_items l w : word w -> Forall (fun x => word (snd x)) l -> clean (items w l) = items w l.
Proof.
  intros W F. unfold clean. destruct (has_char_spec "%" (items w l)) as [Hi|_].
  - exfalso. apply (items_chars l w W F) in Hi. destruct Hi as [Hi|Hi]; [discriminate|tauto].
  - apply trimmed_strip. exists [], []. cbn [app]. rewrite app_nil_r.
    repeat split; try constructor; [exact (items_head l w W)|exact (items_last l w W F)].
Qed.

Lemma mapM_app {A B} (f : A -> result B) l1 l2 v1 v2 : mapM f l1 = Ok v1 -> mapM f l2 = Ok v2 ->
  mapM f (l1 ++ l2) = Ok (v1 ++ v2).
Proof.
  revert v1. induction l1 as [|x l1 IH]; intros v1 H1 H2; cbn [mapM app] in *.
  - inversion H1. exact H2.
  - destruct (f x); [|discriminate]. cbn [bind] in *. destruct (mapM f l1) as [ys|]; [|discriminate].
    cbn [bind] in H1. inversion H1; subst. rewrite (IH ys eq_refl H2). reflexivity.
Qed.
Lemma parse_item files w v : word w -> parse_value files w true false = Ok v -> parse_word files true (clean w) = Ok v.
Proof. intros W H. rewrite clean_plain by exact (word_plain w W). now rewrite parse_plain in H by exact (word_plain w W). Qed.
Lemma parse_blank files : files [] = None -> parse_word files true (clean []) = Ok VNone.
Proof. intros H. unfold clean, parse_word. cbn. now rewrite H. Qed.
Lemma mapM_blanks files n : files [] = None ->
  mapM (fun x => parse_word files true (clean x)) (repeat [] n) = Ok (repeat VNone n).
Proof. intros H. induction n as [|n IH]; [reflexivity|]. cbn [repeat mapM]. rewrite (parse_blank files H). cbn [bind]. now rewrite IH. Qed.

Lemma c155_gaps files pf w v l lv : files [] = None -> l <> [] -> word w -> Forall (fun x => word (snd x)) l ->
  parse_value files w true false = Ok v ->
  Forall2 (fun x y => fst y = fst x /\ parse_value files (snd x) true false = Ok (snd y)) l lv ->
  parse_value files (items w l) pf false = Ok (VList (with_gaps v lv)).
Proof.
  intros F0 N W F V F2. unfold parse_value at 1. cbn zeta. rewrite clean_items by assumption.
  assert (B : has_char " " (items w l) = true).
  { destruct (has_char_spec " " (items w l)) as [|X]; [reflexivity|]. exfalso. apply X.
    destruct l as [|[n w'] l]; [congruence|]. cbn [items]. apply in_or_app. right. now left. }
  rewrite B. cbn [orb]. rewrite split_items by assumption. unfold with_gaps.
  assert (E : mapM (fun x => parse_word files true (clean x)) (flat_map (fun x : nat * text => repeat [] (fst x) ++ [snd x]) l)
              = Ok (flat_map (fun x : nat * value => repeat VNone (fst x) ++ [snd x]) lv)).
  { clear N V B. induction F2 as [|x y l lv [En Ev] F2 IH]; [reflexivity|].
    inversion F as [|? ? Wx F']; subst. cbn [flat_map]. apply mapM_app; [|exact (IH F')].
    rewrite En. apply mapM_app; [now apply mapM_blanks|]. cbn [mapM].
    rewrite (parse_item files _ _ Wx Ev). reflexivity. }
  refine (eq_trans (f_equal (fun r => let* vs := r in Ok (VList vs))
    (mapM_app (fun x => parse_word files true (clean x)) [w] _ [v] _ _ E)) _); [|reflexivity].
  cbn [mapM]. now rewrite (parse_item files w v W V).
Qed.
