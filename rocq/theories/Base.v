(** Shared vocabulary of the model: results (exceptions as values), Python
    dictionaries as insertion-ordered association lists, text as lists of
    characters. Nothing here is specific to AeoLiS. *)
From Coq Require Export Ascii String.
From Coq Require Export Bool Arith ZArith QArith Qround Qabs Lia List.
From Coq Require Import Sorting.Permutation Sorting.Sorted.
Export ListNotations.
Open Scope nat_scope.
Open Scope list_scope.

(** Python exceptions that the modelled code can raise. *)
Inductive exn : Type :=
| ValueError | KeyError | IndexError | IOError | AttributeError | TypeError
| NameError | ZeroDivisionError | StopIteration | UnpicklingError | NotImplementedError
| RuntimeError.

(** Result of a call: a value, or an exception. *)
Inductive result (A : Type) : Type :=
| Ok (a : A)
| Raise (e : exn).
Arguments Ok {A} a.
Arguments Raise {A} e.

Definition bind {A B : Type} (m : result A) (f : A -> result B) : result B :=
  match m with
  | Ok a => f a
  | Raise e => Raise e
  end.

Declare Scope res_scope.
Notation "'let*' x ':=' m 'in' f" := (bind m (fun x => f))
  (at level 200, x name, m at level 100, f at level 200) : res_scope.
Open Scope res_scope.

Lemma Ok_inj {A} (a b : A) : Ok a = Ok b -> a = b.
Proof. congruence. Qed.

Definition is_ok {A} (m : result A) : Prop := exists a, m = Ok a.

(** Text is a list of ASCII characters. *)
Definition text := list ascii.
Definition txt (s : string) : text := list_ascii_of_string s.

Fixpoint text_eqb (a b : text) : bool :=
  match a, b with
  | [], [] => true
  | x :: a', y :: b' => Ascii.eqb x y && text_eqb a' b'
  | _, _ => false
  end.

Lemma text_eqb_spec a b : reflect (a = b) (text_eqb a b).
Proof.
  revert b; induction a as [|x a IH]; intros [|y b]; cbn [text_eqb]; try (constructor; congruence).
  destruct (Ascii.eqb_spec x y) as [Hxy|Hxy]; cbn [andb].
  - destruct (IH b) as [Hab|Hab]; constructor; congruence.
  - constructor; congruence.
Qed.

Lemma text_eqb_refl a : text_eqb a a = true.
Proof. destruct (text_eqb_spec a a); congruence. Qed.

Lemma text_eqb_neq a b : a <> b -> text_eqb a b = false.
Proof. destruct (text_eqb_spec a b); congruence. Qed.

(** Python dictionary: association list in insertion order, at most one entry per key. *)
Section Dict.
  Context {V : Type}.
  Definition dict := list (text * V).

  Fixpoint dget (k : text) (d : dict) : option V :=
    match d with
    | [] => None
    | (k', v) :: d' => if text_eqb k k' then Some v else dget k d'
    end.

  (** [d[k] = v]: replaces in place or appends. *)
  Fixpoint dset (k : text) (v : V) (d : dict) : dict :=
    match d with
    | [] => [(k, v)]
    | (k', v') :: d' => if text_eqb k k' then (k', v) :: d' else (k', v') :: dset k v d'
    end.

  Definition dmem (k : text) (d : dict) : bool :=
    match dget k d with Some _ => true | None => false end.

  Definition dkeys (d : dict) : list text := map fst d.

  Lemma dget_dset_same k v d : dget k (dset k v d) = Some v.
  Proof.
    induction d as [|[k' v'] d IH]; cbn [dset dget].
    - now rewrite text_eqb_refl.
    - destruct (text_eqb k k') eqn:E; cbn [dget]; rewrite E; [reflexivity|exact IH].
  Qed.

  Lemma dget_dset_other k k' v d : k <> k' -> dget k (dset k' v d) = dget k d.
  Proof.
    intros Hne. induction d as [|[k1 v1] d IH]; cbn [dset dget].
    - now rewrite text_eqb_neq.
    - destruct (text_eqb_spec k' k1) as [E|E]; cbn [dget].
      + subst k1. now rewrite text_eqb_neq.
      + destruct (text_eqb k k1); [reflexivity|exact IH].
  Qed.

  Lemma dget_In_keys k d : (exists v, dget k d = Some v) <-> In k (dkeys d).
  Proof.
    unfold dkeys. induction d as [|[k1 v1] d IH]; cbn [dget map fst In].
    - split; [intros [v Hv]; discriminate|tauto].
    - destruct (text_eqb_spec k k1) as [E|E].
      + subst k1. split; [now left|intros _; now exists v1].
      + rewrite IH. split; [now right|intros [H|H]; [congruence|exact H]].
  Qed.

  Lemma dget_None_keys k d : dget k d = None <-> ~ In k (dkeys d).
  Proof.
    rewrite <- dget_In_keys. destruct (dget k d) as [v|]; split; intros H; try discriminate.
    - exfalso; apply H; now exists v.
    - intros [v Hv]; discriminate.
    - reflexivity.
  Qed.

  Lemma dkeys_dset k v d :
    dkeys (dset k v d) = if dmem k d then dkeys d else dkeys d ++ [k].
  Proof.
    unfold dkeys, dmem. induction d as [|[k1 v1] d IH]; cbn [dset dget map fst app].
    - reflexivity.
    - destruct (text_eqb k k1) eqn:E; cbn [map fst]; [reflexivity|].
      rewrite IH. destruct (dget k d); reflexivity.
  Qed.
End Dict.
Arguments dict : clear implicits.

(** Python's ordering of strings: by code point, a prefix first. *)
Fixpoint text_leb (a b : text) : bool :=
  match a, b with
  | [], _ => true
  | _ :: _, [] => false
  | x :: a', y :: b' =>
      if Nat.eqb (nat_of_ascii x) (nat_of_ascii y) then text_leb a' b'
      else Nat.ltb (nat_of_ascii x) (nat_of_ascii y)
  end.

(** Python's [sorted] by a text key (stable insertion sort). *)
Section Sort.
  Context {A : Type} (key : A -> text).
  Fixpoint insert_by (x : A) (l : list A) : list A :=
    match l with
    | [] => [x]
    | y :: l' => if text_leb (key x) (key y) then x :: l else y :: insert_by x l'
    end.
  Definition sort_by (l : list A) : list A := fold_right insert_by [] l.
End Sort.

Lemma text_leb_total a : forall b, text_leb a b = true \/ text_leb b a = true.
Proof.
  induction a as [|x a IH]; intros [|y b]; cbn [text_leb]; try tauto.
  destruct (Nat.eqb_spec (nat_of_ascii x) (nat_of_ascii y)) as [E|E].
  - rewrite E, Nat.eqb_refl. apply IH.
  - destruct (Nat.eqb_spec (nat_of_ascii y) (nat_of_ascii x)) as [E'|E']; [congruence|].
    rewrite !Nat.ltb_lt. lia.
Qed.

Lemma text_leb_refl a : text_leb a a = true.
Proof. destruct (text_leb_total a a); assumption. Qed.

Lemma nat_of_ascii_inj x y : nat_of_ascii x = nat_of_ascii y -> x = y.
Proof. intros E. now rewrite <- (ascii_nat_embedding x), <- (ascii_nat_embedding y), E. Qed.

Lemma text_leb_antisym a : forall b, text_leb a b = true -> text_leb b a = true -> a = b.
Proof.
  induction a as [|x a IH]; intros [|y b]; cbn [text_leb]; try congruence.
  destruct (Nat.eqb_spec (nat_of_ascii x) (nat_of_ascii y)) as [E|E].
  - rewrite E, Nat.eqb_refl. intros H1 H2. f_equal; [now apply nat_of_ascii_inj|now apply IH].
  - destruct (Nat.eqb_spec (nat_of_ascii y) (nat_of_ascii x)) as [E'|E']; [congruence|].
    rewrite !Nat.ltb_lt. lia.
Qed.

Lemma text_leb_trans a : forall b c, text_leb a b = true -> text_leb b c = true -> text_leb a c = true.
Proof.
  induction a as [|x a IH]; intros [|y b] [|z c]; cbn [text_leb]; try congruence; try tauto.
  destruct (Nat.eqb_spec (nat_of_ascii x) (nat_of_ascii y)) as [E|E].
  - rewrite E. destruct (Nat.eqb_spec (nat_of_ascii y) (nat_of_ascii z)); [apply IH|tauto].
  - intros H1 H2. apply Nat.ltb_lt in H1.
    destruct (Nat.eqb_spec (nat_of_ascii y) (nat_of_ascii z)) as [E2|E2].
    + rewrite <- E2. destruct (Nat.eqb_spec (nat_of_ascii x) (nat_of_ascii y)); [lia|].
      now apply Nat.ltb_lt.
    + apply Nat.ltb_lt in H2. destruct (Nat.eqb_spec (nat_of_ascii x) (nat_of_ascii z)); [lia|].
      apply Nat.ltb_lt. lia.
Qed.

Section SortFacts.
  Context {A : Type} (key : A -> text).
  Lemma insert_by_perm x l : Permutation (insert_by key x l) (x :: l).
  Proof.
    induction l as [|y l IH]; cbn [insert_by]; [reflexivity|].
    destruct (text_leb (key x) (key y)); [reflexivity|].
    rewrite IH. apply perm_swap.
  Qed.
  Lemma sort_by_perm l : Permutation (sort_by key l) l.
  Proof.
    unfold sort_by. induction l as [|x l IH]; cbn [fold_right]; [reflexivity|].
    rewrite insert_by_perm. now apply perm_skip.
  Qed.
  Definition key_le (x y : A) : Prop := text_leb (key x) (key y) = true.
  Lemma insert_by_sorted x l : StronglySorted key_le l -> StronglySorted key_le (insert_by key x l).
  Proof.
    induction l as [|y l IH]; intros H; cbn [insert_by]; [repeat constructor|].
    inversion H as [|? ? Hs Hy]; subst. destruct (text_leb (key x) (key y)) eqn:E.
    - constructor; [exact H|]. constructor; [exact E|].
      eapply Forall_impl; [|exact Hy]. intros z Hz. unfold key_le in *. eapply text_leb_trans; eassumption.
    - constructor; [now apply IH|]. rewrite Forall_forall in Hy |- *. intros z Hz.
      apply (Permutation_in _ (insert_by_perm x l)) in Hz. destruct Hz as [<-|Hz]; [|now apply Hy].
      unfold key_le. destruct (text_leb_total (key x) (key y)); congruence.
  Qed.
  Lemma sort_by_sorted l : StronglySorted key_le (sort_by key l).
  Proof.
    unfold sort_by. induction l as [|x l IH]; cbn [fold_right]; [constructor|now apply insert_by_sorted].
  Qed.
End SortFacts.

Lemma dget_perm {V} (d d' : dict V) k : Permutation d d' -> NoDup (dkeys d) -> dget k d = dget k d'.
Proof.
  unfold dkeys. intros H. induction H as [|[k1 v1] l l' H IH|[k1 v1] [k2 v2] l|l l' l'' H1 IH1 H2 IH2]; intros Hn.
  - reflexivity.
  - cbn [dget]. cbn [map fst] in Hn. inversion Hn; subst. now rewrite IH.
  - cbn [dget]. cbn [map fst] in Hn. inversion Hn as [|? ? Hi _]; subst.
    destruct (text_eqb_spec k k1) as [->|]; [|reflexivity].
    destruct (text_eqb_spec k1 k2) as [->|]; [exfalso; apply Hi; now left|reflexivity].
  - rewrite IH1 by exact Hn. apply IH2. eapply Permutation_NoDup; [|exact Hn]. now apply Permutation_map.
Qed.
