(** Shared arithmetic on rationals: boolean comparisons, minimum and maximum, sums over lists.
    numpy's [minimum], [maximum], [max], [min] and [sum] on exact numbers. *)
From Coq Require Export Lqa.
From Verif Require Import Base.
Open Scope Q_scope.

Definition Qltb (a b : Q) : bool := negb (Qle_bool b a).
Definition qmin (a b : Q) : Q := if Qle_bool a b then a else b.
Definition qmax (a b : Q) : Q := if Qle_bool a b then b else a.
(** np.max / np.min of a non-empty array, given as first element and rest. *)
Definition qmaxl (x : Q) (l : list Q) : Q := fold_left qmax l x.
Definition qminl (x : Q) (l : list Q) : Q := fold_left qmin l x.
Definition qsum (l : list Q) : Q := fold_right Qplus 0 l.
Definition qabs (a : Q) : Q := if Qle_bool 0 a then a else - a.

Lemma Qle_bool_spec a b : reflect (a <= b) (Qle_bool a b).
Proof.
  destruct (Qle_bool a b) eqn:E; constructor.
  - now apply Qle_bool_iff.
  - intros H. apply Qle_bool_iff in H. congruence.
Qed.
Lemma Qltb_spec a b : reflect (a < b) (Qltb a b).
Proof.
  unfold Qltb. destruct (Qle_bool_spec b a) as [H|H]; cbn [negb]; constructor.
  - now apply Qle_not_lt.
  - now apply Qnot_le_lt.
Qed.
Lemma Qeq_bool_spec a b : reflect (a == b) (Qeq_bool a b).
Proof.
  destruct (Qeq_bool a b) eqn:E; constructor.
  - now apply Qeq_bool_iff.
  - intros H. apply Qeq_bool_iff in H. congruence.
Qed.

(** Case split on every boolean comparison in the goal. *)
Ltac qsplit :=
  repeat match goal with
  | |- context [Qle_bool ?a ?b] =>
      let H := fresh "Hq" in destruct (Qle_bool_spec a b) as [H|H]; [|apply Qnot_le_lt in H]
  | |- context [Qltb ?a ?b] =>
      let H := fresh "Hq" in destruct (Qltb_spec a b) as [H|H]; [|apply Qnot_lt_le in H]
  | |- context [Qeq_bool ?a ?b] =>
      let H := fresh "Hq" in destruct (Qeq_bool_spec a b) as [H|H]
  end.

Lemma qmin_l a b : qmin a b <= a.
Proof. unfold qmin. qsplit; lra. Qed.
Lemma qmin_r a b : qmin a b <= b.
Proof. unfold qmin. qsplit; lra. Qed.
Lemma qmin_glb a b c : c <= a -> c <= b -> c <= qmin a b.
Proof. unfold qmin. qsplit; lra. Qed.
Lemma qmin_pos a b : 0 < a -> 0 < b -> 0 < qmin a b.
Proof. unfold qmin. qsplit; lra. Qed.
Lemma qmax_l a b : a <= qmax a b.
Proof. unfold qmax. qsplit; lra. Qed.
Lemma qmax_r a b : b <= qmax a b.
Proof. unfold qmax. qsplit; lra. Qed.
Lemma qmax_lub a b c : a <= c -> b <= c -> qmax a b <= c.
Proof. unfold qmax. qsplit; lra. Qed.
Lemma qmin_cases a b : (qmin a b = a /\ a <= b) \/ (qmin a b = b /\ b <= a).
Proof. unfold qmin. qsplit; [left|right]; split; try reflexivity; lra. Qed.
Lemma qmax_cases a b : (qmax a b = a /\ b <= a) \/ (qmax a b = b /\ a <= b).
Proof. unfold qmax. qsplit; [right|left]; split; try reflexivity; lra. Qed.

Lemma qmaxl_ge x l : x <= qmaxl x l /\ (forall y, In y l -> y <= qmaxl x l).
Proof.
  unfold qmaxl. revert x. induction l as [|a l IH]; intros x; cbn [fold_left].
  - split; [lra|intros y []].
  - destruct (IH (qmax x a)) as [H1 H2]. pose proof (qmax_l x a). pose proof (qmax_r x a). split; [lra|].
    intros y [->|Hy]; [lra|now apply H2].
Qed.
Lemma qmaxl_in x l : In (qmaxl x l) (x :: l).
Proof.
  unfold qmaxl. revert x. induction l as [|a l IH]; intros x; cbn [fold_left]; [now left|].
  destruct (IH (qmax x a)) as [H|H]; [|right; now right].
  rewrite <- H. destruct (qmax_cases x a) as [[-> _]|[-> _]]; cbn [In]; tauto.
Qed.
Lemma qminl_le x l : qminl x l <= x /\ (forall y, In y l -> qminl x l <= y).
Proof.
  unfold qminl. revert x. induction l as [|a l IH]; intros x; cbn [fold_left].
  - split; [lra|intros y []].
  - destruct (IH (qmin x a)) as [H1 H2]. pose proof (qmin_l x a). pose proof (qmin_r x a). split; [lra|].
    intros y [->|Hy]; [lra|now apply H2].
Qed.
Lemma qminl_in x l : In (qminl x l) (x :: l).
Proof.
  unfold qminl. revert x. induction l as [|a l IH]; intros x; cbn [fold_left]; [now left|].
  destruct (IH (qmin x a)) as [H|H]; [|right; now right].
  rewrite <- H. destruct (qmin_cases x a) as [[-> _]|[-> _]]; cbn [In]; tauto.
Qed.

Lemma qsum_app a b : qsum (a ++ b) == qsum a + qsum b.
Proof. unfold qsum. induction a as [|x a IH]; cbn [app fold_right]; [ring|rewrite IH; ring]. Qed.
Lemma qsum_nonneg l : (forall x, In x l -> 0 <= x) -> 0 <= qsum l.
Proof.
  unfold qsum. induction l as [|x l IH]; intros H; cbn [fold_right]; [lra|].
  assert (0 <= x) by (apply H; now left). assert (0 <= fold_right Qplus 0 l) by (apply IH; intros; apply H; now right). lra.
Qed.
Lemma qsum_map_scale {A} c (f : A -> Q) l : qsum (map (fun x => c * f x) l) == c * qsum (map f l).
Proof. unfold qsum. induction l as [|x l IH]; cbn [map fold_right]; [ring|rewrite IH; ring]. Qed.
Lemma qsum_map_add {A} (f g : A -> Q) l : qsum (map (fun x => f x + g x) l) == qsum (map f l) + qsum (map g l).
Proof. unfold qsum. induction l as [|x l IH]; cbn [map fold_right]; [ring|rewrite IH; ring]. Qed.
Lemma qsum_map_ext {A} (f g : A -> Q) l : (forall x, In x l -> f x == g x) -> qsum (map f l) == qsum (map g l).
Proof.
  unfold qsum. induction l as [|x l IH]; intros H; cbn [map fold_right]; [reflexivity|].
  rewrite IH by (intros; apply H; now right). rewrite H by (now left). reflexivity.
Qed.
Lemma qsum_map_const {A} c (l : list A) : qsum (map (fun _ => c) l) == inject_Z (Z.of_nat (length l)) * c.
Proof.
  unfold qsum. induction l as [|x l IH]; cbn [map fold_right length]; [ring|].
  rewrite IH, Nat2Z.inj_succ, <- Z.add_1_l, inject_Z_plus. ring.
Qed.
Lemma qsum_member x l : (forall y, In y l -> 0 <= y) -> In x l -> x <= qsum l.
Proof.
  unfold qsum. induction l as [|a l IH]; intros H Hi; [destruct Hi|]. destruct Hi as [->|Hx]; cbn [fold_right].
  - assert (0 <= fold_right Qplus 0 l) by (apply (qsum_nonneg l); intros; apply H; now right). lra.
  - assert (0 <= a) by (apply H; now left). assert (x <= fold_right Qplus 0 l) by (apply IH; [intros; apply H; now right|exact Hx]). lra.
Qed.
Lemma qabs_nonneg a : 0 <= qabs a.
Proof. unfold qabs. qsplit; lra. Qed.
Lemma qabs_ge a : a <= qabs a /\ - a <= qabs a.
Proof. unfold qabs. qsplit; lra. Qed.
