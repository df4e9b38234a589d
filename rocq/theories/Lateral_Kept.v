(** Constant lateral borders, with wind towards the higher rows. *)
From Coq Require Import QArith Lia Lqa List Bool Arith Setoid.
From Verif Require Import Base Num Utils_Model Solver_Model Solver_Spec Linear Solver_Proofs Solver_Iter Solver_Balance Pieter_Model Pieter_Spec Pieter_Proofs Pieter_Coefs Pieter_Balance Pieter_Unique Pieter_Whole Pieter_Outcome Sym_Proofs Lateral_Spec.
Import ListNotations.
Open Scope Q_scope.

Section Kept.
Variable k : pcfg.
Variable f : flow.
Variable d : input.
Hypothesis Hw : workable k.
Hypothesis HC : lateral k = Constant.
Hypothesis Hv : forall r c, within k r c -> 0 <= un f r c.
Variable sp : (nat -> nat -> Q) -> (nat -> Q) -> nat -> Q.
Hypothesis Hsp : solvable sp (number_of_cells k) (pmatrix k f).
Notation co := (coefs k f).

Lemma border_fixed r c : border k r -> co r c = fixed.
Proof.
  intros B. unfold coefs, with_last, with_first. rewrite HC. destruct (Nat.eqb_spec r (ny k)) as [->|N]; [reflexivity|]. destruct B as [-> | E]; [reflexivity | contradiction].
Qed.
Lemma up_none r c : (r <= ny k)%nat -> (c <= nx k)%nat -> apx (co r c) == 0.
Proof.
  intros Hr Hc. destruct (Nat.eq_dec r 0) as [R|R0]. rewrite border_fixed by (left; exact R). reflexivity. destruct (Nat.eq_dec r (ny k)) as [R|R1]. rewrite border_fixed by (right; exact R). reflexivity.
  assert (I : apx (inner k f r c) == 0).
  { unfold inner. cbv zeta. cbn [apx]. assert (U : upw (speed_n k f (S r) c) = 1).
    { unfold speed_n. destruct (Nat.eqb_spec (S r) 0); [lia|]. destruct (Nat.eqb_spec (S r) (S (ny k))); [lia|]. cbn [orb]. pose proof (Hv (S r - 1)%nat c ltac:(split; lia)). pose proof (Hv (S r) c ltac:(split; lia)).
      match goal with |- upw ?q = 1 => destruct (upw_cases q) as [[_ E]|[L _]]; [exact E | lra] end. }
    rewrite U. apply only_0. ring. }
  unfold coefs, with_last, with_first. destruct (Nat.eqb_spec r (ny k)); [contradiction|]. destruct (Nat.eqb_spec r 0); [contradiction|]. unfold with_onshore, with_offshore.
  destruct (Nat.eqb c (nx k)); destruct (Nat.eqb c 0); destruct (onshore k); destruct (offshore k); cbn [apx fixed]; first [exact I | reflexivity].
Qed.
Lemma border_still w x r c : border k r -> (c <= nx k)%nat -> cell k (sp (pmatrix k f) (prhs k f d w x)) r c == 0.
Proof.
  intros B Hc. assert (Hr : (r <= ny k)%nat) by (destruct B as [-> | ->]; lia). pose proof Hw as (HY & HX & _). destruct (Hsp (prhs k f d w x)) as [Y _]. set (y := sp (pmatrix k f) (prhs k f d w x)) in *.
  assert (E := proj2 (solves_iff _ _ _ _) Y (r * width k + c)%nat (in_grid k r c Hr Hc)). rewrite <- cells_eq in E. rewrite (prow k f HY HX y r c Hr Hc) in E. rewrite (border_fixed r c B) in E. cbn [am1 a0 ap1 amx fixed] in E.
  assert (N : (next_row k r <= ny k)%nat) by (unfold next_row; destruct (Nat.eqb_spec r (ny k)); lia). pose proof (up_none _ c N Hc) as UN.
  assert (S : side k f d w x r c == 0). { unfold side, first_side, last_side. rewrite HC. destruct B as [-> | ->]. reflexivity. rewrite Nat.eqb_refl. destruct (Nat.eqb (ny k) 0); reflexivity. }
  unfold prhs in E. rewrite (flat_rc k) in E by exact Hc. rewrite S in E. unfold cell in *. destruct (Nat.eqb (ny k) 0); [|rewrite UN in E]; lra.
Qed.
(** [s] times the concentrations [x] along the borders. *)
Definition kept (s : Q) (x z : nat -> Q) : Prop := forall r c, border k r -> (c <= nx k)%nat -> cell k z r c == s * cell k x r c.
Lemma border_in r c : border k r -> (c <= nx k)%nat -> (r * width k + c < cells k)%nat.
Proof. intros B Hc. apply rc_lt; [destruct B as [-> | ->]; lia | exact Hc]. Qed.
Lemma improve_kept s w x z : kept s x z -> kept s x (improve sp k f d w z).
Proof.
  intros K r c B Hc. pose proof (border_still w z r c B Hc) as S. specialize (K r c B Hc). unfold improve, cell in *. cbv zeta. rewrite memo_get by (apply border_in; assumption). rewrite S, K. ring.
Qed.
Lemma tidy_kept s x y z : (forall i, (i < cells k)%nat -> 0 <= x i) -> kept s x y -> ptidy k y = Some z -> exists s', kept s' x z.
Proof.
  intros X K. unfold ptidy. set (t := memo (cells k) _).
  assert (T : forall i, (i < cells k)%nat -> t i = no_tiny_negative (max_error k) 0 (y i)) by (intros i Hi; unfold t; apply memo_get, Hi). clearbody t.
  destruct (Qlt_le_dec s 0) as [L|L].
  - assert (N : forall r c, border k r -> (c <= nx k)%nat -> t (r * width k + c)%nat <= 0).
    { intros r c B Hc. rewrite T by (apply border_in; assumption). specialize (K r c B Hc). specialize (X _ (border_in r c B Hc)). unfold cell in K. assert (0 <= (- s) * x (r * width k + c)%nat) by (apply mul_nn; lra). unfold no_tiny_negative. destruct (_ && _); lra. }
    intros E. exists 0. intros r c B Hc. specialize (N r c B Hc). unfold cell. setoid_replace (0 * x (r * width k + c)%nat) with 0 by ring. unfold remove_negatives in E. destruct (anyn (cells k) (negative t)) eqn:A.
    + destruct (Qeq_bool (pos_sum (cells k) t) 0). destruct (_ || _); [|discriminate E]. injection E as <-. reflexivity. injection E as <-. rewrite memo_get by (apply border_in; assumption).
      unfold negative. destruct (Qltb_spec (t (r * width k + c)%nat) 0) as [M|M]; [reflexivity|]. assert (Z : t (r * width k + c)%nat == 0) by lra. rewrite Z. ring.
    + injection E as <-. destruct (Qlt_le_dec (t (r * width k + c)%nat) 0) as [M|M]; [|lra]. exfalso. assert (A' : anyn (cells k) (negative t) = true). { apply anyn_spec. exists (r * width k + c)%nat. split. apply border_in; assumption. unfold negative. destruct (Qltb_spec (t (r * width k + c)%nat) 0); [reflexivity | lra]. } congruence.
  - assert (N : forall r c, border k r -> (c <= nx k)%nat -> t (r * width k + c)%nat == s * x (r * width k + c)%nat /\ negative t (r * width k + c)%nat = false).
    { intros r c B Hc. assert (P : 0 <= s * x (r * width k + c)%nat) by (apply mul_nn; [exact L | apply X, border_in; assumption]). specialize (K r c B Hc). unfold cell in K. unfold negative. rewrite T by (apply border_in; assumption). unfold no_tiny_negative. destruct (Qltb_spec (y (r * width k + c)%nat) 0); [lra|]. cbn [andb]. split. exact K. destruct (Qltb_spec (y (r * width k + c)%nat) 0); [lra | reflexivity]. }
    intros E. unfold remove_negatives in E. destruct (anyn (cells k) (negative t)).
    + destruct (Qeq_bool (pos_sum (cells k) t) 0). destruct (_ || _); [|discriminate E]. injection E as <-. exists 0. intros r c _ _. unfold cell. ring.
      injection E as <-. exists (s * (1 + neg_sum (cells k) t / pos_sum (cells k) t)). intros r c B Hc. unfold cell. rewrite memo_get by (apply border_in; assumption). destruct (N r c B Hc) as [N1 ->]. rewrite N1. ring.
    + injection E as <-. exists s. intros r c B Hc. apply N; assumption.
Qed.
Lemma iterate_kept x : (forall i, (i < cells k)%nat -> 0 <= x i) -> forall fuel s w z o, kept s x z -> piterate sp k f d w z fuel = Some o -> exists s', kept s' x (ct o).
Proof.
  intros X. induction fuel as [|fuel IH]; intros s w z o K; cbn [piterate]; destruct (ptidy k (improve sp k f d w z)) as [t|] eqn:E; try discriminate; destruct (tidy_kept s x _ t X (improve_kept s w x z K) E) as [s' K']; destruct (anyn _ _); cbv zeta; intros H.
  - injection H as <-. exists s'. exact K'.
  - injection H as <-. exists s'. exact K'.
  - exact (IH s' _ _ _ K' H).
  - injection H as <-. exists s'. exact K'.
Qed.
End Kept.

Lemma border_kept : forall sp (k : pcfg) f d w x o, workable k -> lateral k = Constant -> (forall r c, within k r c -> 0 <= un f r c) -> solvable sp (number_of_cells k) (pmatrix k f) -> all_nonneg (number_of_cells k) x ->
  pieter_fraction sp k f d w x = Ok (Some o) -> exists s, forall r c, border k r -> (c <= nx k)%nat -> at_cell k (ct o) r c == s * at_cell k x r c.
Proof.
  intros sp k f d w x o H1 H2 H3 H4 H5 H. unfold pieter_fraction in H. destruct (pcheck k) as [[]|]; [|discriminate H]. cbn [bind] in H. injection H as H.
  apply (iterate_kept k f d H1 H2 H3 sp H4 x) with (s := 1) (w := w) (z := x) (fuel := (max_iter k - 1)%nat).
  - intros i Hi. rewrite cells_eq in Hi. apply H5, Hi.
  - intros r c _ _. ring.
  - exact H.
Qed.
