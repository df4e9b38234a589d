(* Rounding to doubles: the relative error is at most 2^-53, and a number that is a double stays as it is. *)
From Coq Require Import QArith Qpower Qround Qabs Qfield ZArith Bool List Lia.
From Verif Require Import Base Num Round_Model.
Open Scope Q_scope.

Lemma p2_pos k : 0 < 2 ^ k.
Proof. apply Qpower_0_lt. reflexivity. Qed.
Lemma p2_add a b : 2 ^ (a + b) == 2 ^ a * 2 ^ b.
Proof. apply Qpower_plus. intro H. discriminate H. Qed.
Lemma p2_S a : 2 ^ (a + 1) == 2 * 2 ^ a.
Proof. rewrite p2_add. setoid_replace (2 ^ 1) with 2 by reflexivity. ring. Qed.
Lemma p2_pred a : 2 ^ a == 2 * 2 ^ (a - 1).
Proof. rewrite <- p2_S. replace (a - 1 + 1)%Z with a by lia. reflexivity. Qed.
Lemma p2_inv a : 2 ^ a * 2 ^ (- a) == 1.
Proof. rewrite <- p2_add. replace (a + - a)%Z with 0%Z by lia. reflexivity. Qed.
Lemma p2_Z n : (0 <= n)%Z -> inject_Z (2 ^ n) == 2 ^ n.
Proof. intro H. rewrite Zpower_Qpower by exact H. reflexivity. Qed.
Lemma p2_le a b : (a <= b)%Z -> 2 ^ a <= 2 ^ b.
Proof. intro H. apply Qpower_le_compat_l; [exact H|discriminate]. Qed.
Lemma p2_lt_inv a b : 2 ^ a < 2 ^ b -> (a < b)%Z.
Proof. intro H. apply (Qpower_lt_compat_l_inv 2); [exact H|reflexivity]. Qed.

Lemma expo_spec a : 0 < a -> 2 ^ expo a <= a /\ a < 2 ^ (expo a + 1).
Proof.
  intro P. destruct a as [n d].
  assert (0 < n)%Z as Pn by (unfold Qlt in P; simpl in P; lia).
  unfold expo. cbn [Qnum Qden]. set (ln := Z.log2 n). set (ld := Z.log2 (Zpos d)).
  destruct (Z.log2_spec n Pn) as [N1 N2]. destruct (Z.log2_spec (Zpos d) eq_refl) as [D1 D2]. fold ln in N1, N2. fold ld in D1, D2.
  assert (0 <= ln)%Z as Ln by apply Z.log2_nonneg. assert (0 <= ld)%Z as Ld by apply Z.log2_nonneg.
  assert (n # d == inject_Z n * / inject_Z (Zpos d)) as E by (apply Qmake_Qdiv).
  set (x := inject_Z n) in *. set (y := inject_Z (Zpos d)) in *.
  assert (2 ^ ln <= x) as X1 by (rewrite <- p2_Z by exact Ln; unfold x; rewrite <- Zle_Qle; exact N1).
  assert (x < 2 * 2 ^ ln) as X2 by (rewrite <- p2_S, <- p2_Z by lia; unfold x; rewrite <- Zlt_Qlt; exact N2).
  assert (2 ^ ld <= y) as Y1 by (rewrite <- p2_Z by exact Ld; unfold y; rewrite <- Zle_Qle; exact D1).
  assert (y < 2 * 2 ^ ld) as Y2 by (rewrite <- p2_S, <- p2_Z by lia; unfold y; rewrite <- Zlt_Qlt; exact D2).
  pose proof (p2_pos ln) as Q1. pose proof (p2_pos ld) as Q2.
  assert (0 < y) as Py by lra.
  assert (2 ^ (ln - ld) * 2 ^ ld == 2 ^ ln) as S by (rewrite <- p2_add; replace (ln - ld + ld)%Z with ln by lia; reflexivity).
  pose proof (p2_pos (ln - ld)) as Q3. set (s := 2 ^ (ln - ld)) in *.
  assert (n # d < 2 * s) as U.
  { rewrite E. apply Qlt_shift_div_r; [exact Py|]. nra. }
  assert (s < 2 * (n # d)) as V.
  { rewrite E. setoid_replace (2 * (x * / y)) with ((2 * x) / y) by (unfold Qdiv; ring). apply Qlt_shift_div_l; [exact Py|]. nra. }
  destruct (Qle_bool_spec s (n # d)) as [H|H].
  - split; [exact H|]. rewrite p2_S. exact U.
  - replace (ln - ld - 1 + 1)%Z with (ln - ld)%Z by lia. pose proof (p2_pred (ln - ld)) as W. fold s in W |- *. split; lra.
Qed.

Lemma expo_unique a e : 0 < a -> 2 ^ e <= a -> a < 2 ^ (e + 1) -> expo a = e.
Proof.
  intros P L U. destruct (expo_spec a P) as [L' U'].
  assert (expo a < e + 1)%Z by (apply p2_lt_inv; lra). assert (e < expo a + 1)%Z by (apply p2_lt_inv; lra). lia.
Qed.

Lemma near_even_proper x y : x == y -> near_even x = near_even y.
Proof.
  intro E. unfold near_even. rewrite (Qfloor_comp _ _ E).
  replace (x - inject_Z (Qfloor y) ?= 1 # 2) with (y - inject_Z (Qfloor y) ?= 1 # 2); [reflexivity|]. rewrite E. reflexivity.
Qed.
Lemma near_even_near x : - (1#2) <= inject_Z (near_even x) - x /\ inject_Z (near_even x) - x <= 1 # 2.
Proof.
  pose proof (Qfloor_le x) as L. pose proof (Qlt_floor x) as U. rewrite inject_Z_plus in U. change (inject_Z 1) with 1 in U.
  unfold near_even. destruct (Qcompare_spec (x - inject_Z (Qfloor x)) (1 # 2)) as [H|H|H]; [destruct (Z.even _)| |];
    rewrite ?inject_Z_plus; change (inject_Z 1) with 1; lra.
Qed.
Lemma near_even_Z z : near_even (inject_Z z) = z.
Proof.
  unfold near_even. rewrite Qfloor_Z.
  destruct (Qcompare_spec (inject_Z z - inject_Z z) (1 # 2)) as [H|H|H]; [exfalso; lra|reflexivity|exfalso; lra].
Qed.

Lemma qabs_proper x y : x == y -> qabs x == qabs y.
Proof. intro E. unfold qabs. destruct (Qle_bool_spec 0 x), (Qle_bool_spec 0 y); lra. Qed.

Lemma expo_proper x y : 0 < x -> x == y -> expo x = expo y.
Proof.
  intros P E. assert (0 < y) as P' by lra. destruct (expo_spec y P') as [L U]. apply expo_unique; [exact P| |]; lra.
Qed.

Lemma dbl_proper x y : x == y -> dbl x == dbl y.
Proof.
  intro E. unfold dbl. destruct (Qeq_bool_spec x 0) as [X|X], (Qeq_bool_spec y 0) as [Y|Y]; try reflexivity; try (exfalso; lra).
  assert (0 < qabs x) as P by (unfold qabs; destruct (Qle_bool_spec 0 x); lra).
  rewrite <- (expo_proper _ _ P (qabs_proper _ _ E)).
  rewrite (near_even_proper (qabs y * 2 ^ (52 - expo (qabs x))) (qabs x * 2 ^ (52 - expo (qabs x)))) by (apply Qmult_comp; [symmetry; apply qabs_proper; exact E|reflexivity]).
  rewrite !Qred_correct. destruct (Qle_bool_spec 0 x), (Qle_bool_spec 0 y); try reflexivity; exfalso; lra.
Qed.

Lemma dbl_near x : qabs (dbl x - x) <= 2 ^ (-53) * qabs x.
Proof.
  unfold dbl. destruct (Qeq_bool_spec x 0) as [X|X].
  { unfold qabs. destruct (Qle_bool_spec 0 (0 - x)), (Qle_bool_spec 0 x); lra. }
  assert (0 < qabs x) as P by (unfold qabs; destruct (Qle_bool_spec 0 x); lra).
  destruct (expo_spec _ P) as [L U]. set (a := qabs x) in *. set (e := expo a) in *.
  pose proof (near_even_near (a * 2 ^ (52 - e))) as [N1 N2]. set (m := inject_Z (near_even (a * 2 ^ (52 - e)))) in *.
  assert (2 ^ (52 - e) * 2 ^ (e - 52) == 1) as I by (rewrite <- p2_add; replace (52 - e + (e - 52))%Z with 0%Z by lia; reflexivity).
  assert (2 ^ (e - 52) == 2 * 2 ^ (-53) * 2 ^ e) as J.
  { replace (e - 52)%Z with (-53 + e + 1)%Z by lia. rewrite p2_S, p2_add. ring. }
  pose proof (p2_pos (52 - e)) as Q1. pose proof (p2_pos (e - 52)) as Q2. pose proof (p2_pos e) as Q3. pose proof (p2_pos (-53)) as Q4.
  set (u := 2 ^ (-53)) in *. set (s := 2 ^ (52 - e)) in *. set (r := 2 ^ (e - 52)) in *.
  assert (m * r - a == (m - a * s) * r) as K by (rewrite <- (Qmult_1_r a) at 1; rewrite <- I; ring).
  assert (- (u * a) <= m * r - a /\ m * r - a <= u * a) as [B1 B2].
  { rewrite K. assert (r <= 2 * u * a) by nra. split; nra. }
  assert (forall z w, z == w -> qabs (Qred z - x) == qabs (w - x)) as R by (intros z w Z; apply qabs_proper; rewrite Qred_correct, Z; reflexivity).
  rewrite (R _ _ (Qeq_refl _)). clearbody m r s u. unfold a in *. unfold qabs in *.
  destruct (Qle_bool_spec 0 x); [destruct (Qle_bool_spec 0 (m * r - x)); lra|destruct (Qle_bool_spec 0 (- (m * r) - x)); lra].
Qed.

(* A number of at most 53 binary digits is a double. *)
Lemma dbl_exact z k x : (Z.abs z <= 2 ^ 53)%Z -> x == inject_Z z * 2 ^ k -> dbl x == x.
Proof.
  intros B E. unfold dbl. destruct (Qeq_bool_spec x 0) as [X|X]; [symmetry; exact X|].
  assert (0 < qabs x) as P by (unfold qabs; destruct (Qle_bool_spec 0 x); lra).
  destruct (expo_spec _ P) as [L U]. set (e := expo (qabs x)) in *.
  assert (qabs x == inject_Z (Z.abs z) * 2 ^ k) as A.
  { pose proof (p2_pos k) as Pk. rewrite (qabs_proper _ _ E). unfold qabs.
    destruct (Qle_bool_spec 0 (inject_Z z * 2 ^ k)) as [H|H].
    - assert (0 <= z)%Z by (rewrite Zle_Qle; change (inject_Z 0) with 0; nra). rewrite Z.abs_eq by assumption. reflexivity.
    - assert (z <= 0)%Z by (rewrite Zle_Qle; change (inject_Z 0) with 0; nra). rewrite Z.abs_neq by assumption.
      rewrite inject_Z_opp. ring. }
  assert (exists w, qabs x * 2 ^ (52 - e) == inject_Z w) as [w W].
  { assert (e < k + 54)%Z as T.
    { apply p2_lt_inv. replace (k + 54)%Z with (53 + k + 1)%Z by lia. rewrite p2_S, p2_add.
      assert (inject_Z (Z.abs z) <= 2 ^ 53) by (rewrite <- p2_Z by lia; rewrite <- Zle_Qle; exact B).
      pose proof (p2_pos k). pose proof (p2_pos 53). rewrite A in L. set (c := 2 ^ 53) in *. nra. }
    destruct (Z.eq_dec e (k + 53)) as [Q|Q].
    - exists (2 ^ 52)%Z. rewrite A. rewrite p2_Z by lia.
      assert (inject_Z (Z.abs z) == 2 ^ 53) as F.
      { assert (inject_Z (Z.abs z) <= 2 ^ 53) by (rewrite <- p2_Z by lia; rewrite <- Zle_Qle; exact B).
        rewrite Q, A, p2_add in L. pose proof (p2_pos k) as Pk. apply Qle_antisym; [assumption|]. apply Qnot_lt_le. intro G.
        apply (Qmult_lt_compat_r _ _ _ Pk) in G. lra. }
      rewrite F, Q, <- !p2_add. replace (53 + k + (52 - (k + 53)))%Z with 52%Z by lia. reflexivity.
    - exists (Z.abs z * 2 ^ (k + 52 - e))%Z. rewrite A, inject_Z_mult, p2_Z by lia. rewrite <- Qmult_assoc, <- p2_add.
      replace (k + (52 - e))%Z with (k + 52 - e)%Z by lia. reflexivity. }
  rewrite (near_even_proper _ _ W), near_even_Z.
  assert (2 ^ (52 - e) * 2 ^ (e - 52) == 1) as I by (rewrite <- p2_add; replace (52 - e + (e - 52))%Z with 0%Z by lia; reflexivity).
  assert (inject_Z w * 2 ^ (e - 52) == qabs x) as V by (rewrite <- W, <- Qmult_assoc, I; ring).
  rewrite Qred_correct. unfold qabs in V. destruct (Qle_bool_spec 0 x); lra.
Qed.
