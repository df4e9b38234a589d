(** Linear systems over the rationals: sums, systems whose matrix has non-positive entries off the diagonal and positive weighted column
    sums, and Gaussian elimination. Independent of the modelled code, except that [sumn] and [memo] of Solver_Model.v are used. *)
From Coq Require Import QArith Lia Lqa List Bool Arith Setoid.
From Verif Require Import Base Num Utils_Model Solver_Model.
Import ListNotations.
Open Scope Q_scope.

Lemma sumn_0 v : sumn 0 v = 0. Proof. reflexivity. Qed.
Lemma sumn_S n v : sumn (S n) v == sumn n v + v n.
Proof. unfold sumn. rewrite seq_S, map_app, qsum_app. cbn. ring. Qed.
Lemma sumn_ext n u v : (forall i, (i < n)%nat -> u i == v i) -> sumn n u == sumn n v.
Proof. induction n; intros H. reflexivity. rewrite !sumn_S, IHn, (H n) by (intros; try apply H; lia). reflexivity. Qed.
Lemma sumn_plus n u v : sumn n (fun i => u i + v i) == sumn n u + sumn n v.
Proof. induction n. reflexivity. rewrite !sumn_S, IHn. ring. Qed.
Lemma sumn_minus n u v : sumn n (fun i => u i - v i) == sumn n u - sumn n v.
Proof. induction n. reflexivity. rewrite !sumn_S, IHn. ring. Qed.
Lemma sumn_scale n a v : sumn n (fun i => a * v i) == a * sumn n v.
Proof. induction n. rewrite !sumn_0. ring. rewrite !sumn_S, IHn. ring. Qed.
Lemma sumn_zero n v : (forall i, (i < n)%nat -> v i == 0) -> sumn n v == 0.
Proof. induction n; intros H. reflexivity. rewrite sumn_S, IHn, (H n) by (intros; try apply H; lia). reflexivity. Qed.
Lemma sumn_nonneg n v : (forall i, (i < n)%nat -> 0 <= v i) -> 0 <= sumn n v.
Proof. induction n; intros H. apply Qle_refl. rewrite sumn_S. assert (0 <= sumn n v) by (apply IHn; intros; apply H; lia). assert (0 <= v n) by (apply H; lia). lra. Qed.
Lemma sumn_le n u v : (forall i, (i < n)%nat -> u i <= v i) -> sumn n u <= sumn n v.
Proof. induction n; intros H. apply Qle_refl. rewrite !sumn_S. assert (sumn n u <= sumn n v) by (apply IHn; intros; apply H; lia). assert (u n <= v n) by (apply H; lia). lra. Qed.
Lemma sumn_lt n u v i : (i < n)%nat -> u i < v i -> (forall i, (i < n)%nat -> u i <= v i) -> sumn n u < sumn n v.
Proof.
  induction n; intros Hi Hl H. lia. rewrite !sumn_S. destruct (Nat.eq_dec i n) as [->|].
  - assert (sumn n u <= sumn n v) by (apply sumn_le; intros; apply H; lia). lra.
  - assert (sumn n u < sumn n v) by (apply IHn; [lia | exact Hl | intros; apply H; lia]). assert (u n <= v n) by (apply H; lia). lra.
Qed.
Lemma sumn_swap n m (g : nat -> nat -> Q) : sumn n (fun i => sumn m (g i)) == sumn m (fun j => sumn n (fun i => g i j)).
Proof.
  induction n. rewrite sumn_0. symmetry. apply sumn_zero. reflexivity.
  rewrite sumn_S, IHn. rewrite <- sumn_plus. apply sumn_ext. intros. rewrite sumn_S. reflexivity.
Qed.
Lemma sumn_single n k v : (k < n)%nat -> (forall i, (i < n)%nat -> i <> k -> v i == 0) -> sumn n v == v k.
Proof.
  induction n; intros Hk H. lia. rewrite sumn_S. destruct (Nat.eq_dec k n) as [->|].
  - rewrite sumn_zero. ring. intros; apply H; lia.
  - rewrite IHn, (H n) by (try lia; intros; apply H; lia). ring.
Qed.
Lemma sumn_nonpos_member n v i : (i < n)%nat -> (forall i, (i < n)%nat -> 0 <= v i) -> v i <= sumn n v.
Proof.
  induction n; intros Hi H. lia. rewrite sumn_S. assert (0 <= v n) by (apply H; lia). assert (0 <= sumn n v) by (apply sumn_nonneg; intros; apply H; lia).
  destruct (Nat.eq_dec i n) as [->|]; [lra|]. assert (v i <= sumn n v) by (apply IHn; [lia | intros; apply H; lia]). lra.
Qed.
Lemma sumn_const n a : sumn n (fun _ => a) == inject_Z (Z.of_nat n) * a.
Proof. induction n. rewrite sumn_0. cbn. ring. rewrite sumn_S, IHn, Nat2Z.inj_succ, <- Z.add_1_r, inject_Z_plus. ring. Qed.

Lemma memo_get n v i : (i < n)%nat -> memo n v i = v i.
Proof. intros H. unfold memo. rewrite (nth_indep _ 0 (v 0%nat)) by (rewrite map_length, seq_length; exact H). rewrite map_nth, seq_nth by exact H. reflexivity. Qed.
Lemma memo_out n v i : (n <= i)%nat -> memo n v i = 0.
Proof. intros H. unfold memo. apply nth_overflow. rewrite map_length, seq_length. exact H. Qed.

(** Row [i] of the matrix times the vector. *)
Definition mulv (n : nat) (A : nat -> nat -> Q) (x : nat -> Q) (i : nat) : Q := sumn n (fun j => A i j * x j).
Definition solves (n : nat) (A : nat -> nat -> Q) (y x : nat -> Q) : Prop := forall i, (i < n)%nat -> mulv n A x i == y i.
(** Non-positive off the diagonal; the columns, weighted by v, have positive sums. *)
Definition offdiag_nonpos (n : nat) (A : nat -> nat -> Q) : Prop := forall i j, (i < n)%nat -> (j < n)%nat -> i <> j -> A i j <= 0.
Definition columns_positive (n : nat) (A : nat -> nat -> Q) (v : nat -> Q) : Prop :=
  (forall i, (i < n)%nat -> 0 < v i) /\ forall j, (j < n)%nat -> 0 < sumn n (fun i => v i * A i j).

Lemma mul_le_r a b c : 0 <= c -> a <= b -> a * c <= b * c.
Proof. intros. apply Qmult_le_compat_r; assumption. Qed.
Lemma mul_nn a b : 0 <= a -> 0 <= b -> 0 <= a * b.
Proof. intros. apply Qmult_le_0_compat; assumption. Qed.
Lemma mul_pos a b : 0 < a -> 0 < b -> 0 < a * b.
Proof. intros. apply Qmult_lt_0_compat; assumption. Qed.
Lemma mul_np a b : 0 <= a -> b <= 0 -> a * b <= 0.
Proof. intros. assert (0 <= a * - b) by (apply mul_nn; lra). lra. Qed.
Lemma mul_nn2 a b : a <= 0 -> b <= 0 -> 0 <= a * b.
Proof. intros. assert (0 <= - a * - b) by (apply mul_nn; lra). lra. Qed.
Lemma mul_pn a b : a < 0 -> 0 < b -> a * b < 0.
Proof. intros. assert (0 < - a * b) by (apply mul_pos; lra). lra. Qed.

(** Non-negative right hand sides have non-negative solutions. *)
Lemma monotone_nonneg n A v x : offdiag_nonpos n A -> columns_positive n A v -> (forall i, (i < n)%nat -> 0 <= mulv n A x i) ->
  forall i, (i < n)%nat -> 0 <= x i.
Proof.
  intros HZ [Hv Hc] Hy k Hk. destruct (Qlt_le_dec (x k) 0) as [Hneg|]; [|assumption]. exfalso.
  set (s := fun i => if Qltb (x i) 0 then v i else 0).
  assert (Hs : forall i, (i < n)%nat -> 0 <= s i) by (intros i Hi; unfold s; specialize (Hv i Hi); destruct (Qltb (x i) 0); lra).
  assert (H1 : 0 <= sumn n (fun i => s i * mulv n A x i)) by (apply sumn_nonneg; intros i Hi; apply mul_nn; [apply Hs | apply Hy]; exact Hi).
  assert (H2 : sumn n (fun i => s i * mulv n A x i) == sumn n (fun j => x j * sumn n (fun i => s i * A i j))).
  { rewrite (sumn_ext n _ (fun i => sumn n (fun j => x j * (s i * A i j)))).
    - rewrite sumn_swap. apply sumn_ext. intros. rewrite sumn_scale. reflexivity.
    - intros. unfold mulv. rewrite <- sumn_scale. apply sumn_ext. intros. ring. }
  assert (H3 : sumn n (fun j => x j * sumn n (fun i => s i * A i j)) < sumn n (fun _ => 0)).
  { assert (Hin : forall j, (j < n)%nat -> x j < 0 -> 0 < sumn n (fun i => s i * A i j)).
    { intros j Hj Hx. eapply Qlt_le_trans; [apply (Hc j Hj)|]. apply sumn_le. intros i Hi. unfold s. destruct (Qltb_spec (x i) 0). lra.
      assert (Hij : i <> j) by (intros ->; lra). specialize (HZ i j Hi Hj Hij). specialize (Hv i Hi). pose proof (mul_np (v i) (A i j)). lra. }
    apply (sumn_lt _ _ _ k Hk).
    - cbn beta. apply mul_pn. exact Hneg. apply Hin; assumption.
    - intros j Hj. destruct (Qlt_le_dec (x j) 0) as [Hx|Hx].
      + apply Qlt_le_weak, mul_pn. exact Hx. apply Hin; assumption.
      + apply mul_np. exact Hx. rewrite <- (sumn_zero n (fun _ => 0)) by reflexivity. apply sumn_le. intros i Hi. unfold s.
        destruct (Qltb_spec (x i) 0). assert (i <> j) by (intros ->; lra). apply mul_np. apply Qlt_le_weak, Hv, Hi. apply HZ; assumption. lra. }
  rewrite <- H2, (sumn_zero n (fun _ => 0)) in H3 by reflexivity. lra.
Qed.
Lemma mulv_minus n A x z i : mulv n A (fun j => x j - z j) i == mulv n A x i - mulv n A z i.
Proof. unfold mulv. rewrite <- sumn_minus. apply sumn_ext. intros. ring. Qed.
Lemma monotone_le n A v x z : offdiag_nonpos n A -> columns_positive n A v -> (forall i, (i < n)%nat -> mulv n A x i <= mulv n A z i) ->
  forall i, (i < n)%nat -> x i <= z i.
Proof.
  intros HZ Hc H i Hi. assert (0 <= z i - x i).
  { apply (monotone_nonneg n A v (fun j => z j - x j) HZ Hc). intros j Hj. rewrite mulv_minus. specialize (H j Hj). lra. exact Hi. }
  lra.
Qed.
Lemma unique_solution n A v y x z : offdiag_nonpos n A -> columns_positive n A v -> solves n A y x -> solves n A y z -> forall i, (i < n)%nat -> x i == z i.
Proof.
  intros HZ Hc Hx Hz i Hi. apply Qle_antisym; eapply monotone_le; eauto; intros j Hj; rewrite (Hx j Hj), (Hz j Hj); apply Qle_refl.
Qed.

(** Gaussian elimination of the last unknown, without pivoting. *)
Definition memo2 (n : nat) (A : nat -> nat -> Q) : nat -> nat -> Q := let l := map (fun i => map (A i) (seq 0 n)) (seq 0 n) in fun i j => nth j (nth i l []) 0.
Fixpoint gauss (n : nat) (A : nat -> nat -> Q) (y : nat -> Q) : nat -> Q :=
  match n with
  | O => fun _ => 0
  | S m =>
    let x := gauss m (memo2 m (fun i j => Qred (A i j - A i m * A m j / A m m))) (memo m (fun i => Qred (y i - A i m * y m / A m m))) in
    let xm := Qred ((y m - sumn m (fun j => A m j * x j)) / A m m) in
    memo n (fun i => if Nat.eqb i m then xm else x i)
  end.
Lemma memo2_get n A i j : (i < n)%nat -> (j < n)%nat -> memo2 n A i j = A i j.
Proof.
  intros Hi Hj. unfold memo2. rewrite (nth_indep (map (fun i0 => map (A i0) (seq 0 n)) (seq 0 n)) [] (map (A 0%nat) (seq 0 n))) by (rewrite map_length, seq_length; exact Hi).
  change (map (A 0%nat) (seq 0 n)) with ((fun i0 => map (A i0) (seq 0 n)) 0%nat). rewrite map_nth, seq_nth by exact Hi. cbn [Nat.add].
  apply (memo_get n (A i) j Hj).
Qed.
Lemma gauss_solves n : forall A v y, offdiag_nonpos n A -> columns_positive n A v -> solves n A y (gauss n A y).
Proof.
  induction n as [|m IH]; intros A v y HZ [Hv Hc] i Hi. lia.
  assert (Hsum : forall j, (j < S m)%nat -> sumn (S m) (fun i => v i * A i j) == sumn m (fun i => v i * A i j) + v m * A m j) by (intros; apply sumn_S).
  assert (Hlast : sumn m (fun i => v i * A i m) <= 0).
  { rewrite <- (sumn_zero m (fun _ => 0)) by reflexivity. apply sumn_le. intros l Hl. apply mul_np. apply Qlt_le_weak, Hv; lia. apply HZ; lia. }
  assert (Hm : 0 < A m m).
  { pose proof (Hc m ltac:(lia)) as H. rewrite Hsum in H by lia. pose proof (Hv m ltac:(lia)). destruct (Qlt_le_dec 0 (A m m)); [assumption|].
    pose proof (mul_np (v m) (A m m)). lra. }
  set (B := fun i j => A i j - A i m * A m j / A m m). set (z := fun i => y i - A i m * y m / A m m).
  set (x := gauss m (memo2 m (fun i j => Qred (B i j))) (memo m (fun i => Qred (z i)))).
  assert (HB : solves m (memo2 m (fun i j => Qred (B i j))) (memo m (fun i => Qred (z i))) x).
  { apply (IH _ v).
    - intros a b Ha Hb Hab. rewrite memo2_get by assumption. rewrite Qred_correct. unfold B.
      assert (A a b <= 0) by (apply HZ; lia). assert (A a m <= 0) by (apply HZ; lia). assert (A m b <= 0) by (apply HZ; lia).
      assert (0 <= A a m * A m b / A m m). { apply mul_nn. apply mul_nn2; assumption. apply Qlt_le_weak, Qinv_lt_0_compat, Hm. } lra.
    - split. intros; apply Hv; lia. intros j Hj. rewrite (sumn_ext m _ (fun i => v i * A i j - (A m j / A m m) * (v i * A i m))).
      2:{ intros a Ha. rewrite memo2_get by assumption. rewrite Qred_correct. unfold B. field. lra. }
      rewrite sumn_minus, sumn_scale. pose proof (Hc j ltac:(lia)) as H. rewrite Hsum in H by lia.
      pose proof (Hc m ltac:(lia)) as H'. rewrite Hsum in H' by lia. assert (A m j <= 0) by (apply HZ; lia).
      assert (A m j / A m m * sumn m (fun i => v i * A i m) <= - v m * A m j).
      { setoid_replace (- v m * A m j) with (A m j / A m m * (- v m * A m m)) by (field; lra).
        assert (0 <= (- A m j / A m m) * (sumn m (fun i => v i * A i m) + v m * A m m)).
        { apply mul_nn. apply mul_nn. lra. apply Qlt_le_weak, Qinv_lt_0_compat, Hm. lra. }
        setoid_replace (- A m j / A m m) with (- (A m j / A m m)) in H1 by (field; lra). lra. }
      lra. }
  assert (HB' : forall i, (i < m)%nat -> sumn m (fun j => B i j * x j) == z i).
  { intros a Ha. specialize (HB a Ha). unfold mulv in HB. rewrite memo_get, Qred_correct in HB by exact Ha. rewrite <- HB. apply sumn_ext. intros b Hb.
    rewrite memo2_get, Qred_correct by assumption. reflexivity. }
  change (gauss (S m) A y) with (memo (S m) (fun i => if Nat.eqb i m then Qred ((y m - sumn m (fun j => A m j * x j)) / A m m) else x i)).
  unfold mulv. rewrite sumn_S. rewrite (sumn_ext m _ (fun j => A i j * x j)).
  2:{ intros j Hj. rewrite memo_get by lia. destruct (Nat.eqb_spec j m); [lia|reflexivity]. }
  rewrite memo_get by lia. rewrite Nat.eqb_refl, Qred_correct. set (s := sumn m (fun j => A m j * x j)).
  destruct (Nat.eq_dec i m) as [->|]. fold s. field. lra.
  specialize (HB' i ltac:(lia)). unfold z, B in HB'.
  rewrite (sumn_ext m _ (fun j => A i j * x j - (A i m / A m m) * (A m j * x j))) in HB' by (intros; field; lra).
  rewrite sumn_minus, sumn_scale in HB'. fold s in HB'. setoid_replace (sumn m (fun j => A i j * x j)) with (y i - A i m * y m / A m m + A i m / A m m * s) by lra.
  field. lra.
Qed.
Lemma one_solution n A v y : offdiag_nonpos n A -> columns_positive n A v ->
  exists x, solves n A y x /\ forall z, solves n A y z -> forall i, (i < n)%nat -> z i == x i.
Proof. intros HZ Hc. exists (gauss n A y). split. apply (gauss_solves n A v y HZ Hc). intros z Hz i Hi. eapply unique_solution; eauto. apply (gauss_solves n A v y HZ Hc). Qed.
