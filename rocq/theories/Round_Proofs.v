(* The clock in doubles: exact for binary settings, otherwise at most one update off. *)
From Coq Require Import QArith Qpower Qround ZArith Bool List Arith Lia.
From Verif Require Import Base Num Time_Spec Round_Model Round_Dbl Round_Spec.
Import ListNotations.
Open Scope Q_scope.

Definition qn (n : nat) : Q := inject_Z (Z.of_nat n).
Lemma qn_S n : qn (S n) == qn n + 1.
Proof. unfold qn. rewrite Nat2Z.inj_succ, <- Z.add_1_r, inject_Z_plus. reflexivity. Qed.
Lemma qn_le a b : (a <= b)%nat -> qn a <= qn b.
Proof. intro H. unfold qn. rewrite <- Zle_Qle. lia. Qed.
Lemma qn_0 n : 0 <= qn n.
Proof. apply (qn_le 0). lia. Qed.
Lemma qn_plus a b : qn (a + b) == qn a + qn b.
Proof. unfold qn. rewrite Nat2Z.inj_add, inject_Z_plus. reflexivity. Qed.
Lemma qn_mult a b : qn (a * b) == qn a * qn b.
Proof. unfold qn. rewrite Nat2Z.inj_mul, inject_Z_mult. reflexivity. Qed.

(* The state after [n] updates, whatever the stop time. *)
Fixpoint after (rnd : Q -> Q) (g : timing) (n : nat) : ticker :=
  match n with
  | O => write rnd g {| k_t := rnd (g_tstart g); k_tout := 0; k_steps := 0; k_outs := [] |}
  | S n' => write rnd g (advance rnd g (after rnd g n'))
  end.

Lemma write_t rnd g k : k_t (write rnd g k) = k_t k.
Proof. unfold write. destruct (_ || _); reflexivity. Qed.
Lemma write_steps rnd g k : k_steps (write rnd g k) = k_steps k.
Proof. unfold write. destruct (_ || _); reflexivity. Qed.
Lemma after_t_S rnd g n : k_t (after rnd g (S n)) = rnd (k_t (after rnd g n) + rnd (rnd (g_dt g) * rnd (g_accfac g))).
Proof. cbn [after]. rewrite write_t. reflexivity. Qed.
Lemma after_t_0 rnd g : k_t (after rnd g 0) = rnd (g_tstart g).
Proof. cbn [after]. rewrite write_t. reflexivity. Qed.
Lemma after_steps rnd g n : k_steps (after rnd g n) = n.
Proof. induction n; cbn [after]; rewrite write_steps; [reflexivity|]. cbn [advance k_steps]. rewrite IHn. reflexivity. Qed.

Lemma turns_after rnd g N n fuel : (N <= fuel)%nat ->
  (forall j, (j < N)%nat -> k_t (after rnd g (n + j)) <= rnd (g_tstop g)) -> rnd (g_tstop g) < k_t (after rnd g (n + N)) ->
  turns rnd g fuel (after rnd g n) = Some (after rnd g (n + N)).
Proof.
  revert n fuel. induction N as [|N IH]; intros n fuel F B E.
  - replace (n + 0)%nat with n in * by lia.
    destruct fuel; cbn [turns]; destruct (Qle_bool_spec (k_t (after rnd g n)) (rnd (g_tstop g))) as [H|H]; [exfalso; lra|reflexivity|exfalso; lra|reflexivity].
  - destruct fuel as [|fuel]; [lia|]. cbn [turns].
    destruct (Qle_bool_spec (k_t (after rnd g n)) (rnd (g_tstop g))) as [H|H].
    + change (write rnd g (advance rnd g (after rnd g n))) with (after rnd g (S n)).
      replace (n + S N)%nat with (S n + N)%nat in * by lia. apply IH; [lia| |exact E].
      intros j J. replace (S n + j)%nat with (n + S j)%nat by lia. apply B. lia.
    + exfalso. specialize (B 0%nat ltac:(lia)). replace (n + 0)%nat with n in B by lia. lra.
Qed.
Lemma ticking_after rnd g N fuel : (N <= fuel)%nat ->
  (forall j, (j < N)%nat -> k_t (after rnd g j) <= rnd (g_tstop g)) -> rnd (g_tstop g) < k_t (after rnd g N) ->
  ticking rnd g fuel = Some (after rnd g N).
Proof. intros F B E. exact (turns_after rnd g N 0 fuel F B E). Qed.

Lemma updates_spec g : forward g -> exists M, updates g = S M /\ g_tstart g + qn M * interval g <= g_tstop g /\
  g_tstop g < g_tstart g + qn (S M) * interval g.
Proof.
  intros (T0 & T1 & D & A & _). assert (0 < interval g) as H by (unfold interval; nra).
  unfold updates, points. set (x := (g_tstop g - g_tstart g) / interval g).
  assert (x * interval g == g_tstop g - g_tstart g) as X by (unfold x; field; lra).
  pose proof (Qfloor_le x) as L. pose proof (Qlt_floor x) as U. rewrite inject_Z_plus in U. change (inject_Z 1) with 1 in U.
  assert (0 <= Qfloor x)%Z as F.
  { assert (-1 < Qfloor x)%Z; [|lia]. rewrite Zlt_Qlt. change (inject_Z (-1)) with (-1).
    assert (0 <= x) by (unfold x; apply Qle_shift_div_l; lra). lra. }
  exists (Z.to_nat (Qfloor x)). split; [lia|]. rewrite qn_S. unfold qn. rewrite Z2Nat.id by exact F. set (f := inject_Z (Qfloor x)) in *.
  split; nra.
Qed.

Section exact.
  Variables (k : Z) (g : timing).
  Hypotheses (W : forward g) (B : binary k g).

  Lemma unit_dbl x : units k x -> 0 <= x -> x <= 2 ^ 53 * 2 ^ k -> dbl x == x.
  Proof.
    intros [z Z] P U. apply (dbl_exact z k); [|exact Z]. pose proof (p2_pos k) as Pk.
    assert (0 <= z)%Z as Pz. { rewrite Zle_Qle. change (inject_Z 0) with 0. rewrite Z in P. apply Qnot_lt_le. intro. nra. }
    rewrite Z.abs_eq by exact Pz. rewrite Zle_Qle, p2_Z by lia. rewrite Z in U. apply Qnot_lt_le. intro G.
    apply (Qmult_lt_compat_r _ _ _ Pk) in G. lra.
  Qed.
  Lemma interval_pos : 0 < interval g.
  Proof. destruct W as (_ & _ & D & A & _). unfold interval. nra. Qed.
  Lemma acc_ge : 1 <= g_accfac g.
  Proof.
    destruct W as (_ & _ & _ & A & _). destruct B as (_ & _ & _ & _ & [z Z] & _). setoid_replace (2 ^ 0) with 1 in Z by reflexivity.
    assert (0 < z)%Z. { rewrite Zlt_Qlt. change (inject_Z 0) with 0. lra. }
    assert (1 <= inject_Z z). { change 1 with (inject_Z 1). rewrite <- Zle_Qle. lia. } lra.
  Qed.
  Lemma interval_units : units k (interval g).
  Proof.
    destruct B as (_ & _ & [d D] & _ & [z Z] & _). exists (d * z)%Z. unfold interval. rewrite D, Z, inject_Z_mult.
    setoid_replace (2 ^ 0) with 1 by reflexivity. ring.
  Qed.
  Lemma dbl_interval : dbl (dbl (g_dt g) * dbl (g_accfac g)) == interval g.
  Proof.
    pose proof interval_pos as HP. pose proof acc_ge as HA. pose proof interval_units as HU.
    destruct W as (T0 & T1 & D & A & _). destruct B as (_ & _ & UD & _ & [z Z] & BA & _ & BS).
    assert (dbl (g_dt g) == g_dt g) as E1. { apply unit_dbl; [exact UD|lra|]. unfold interval in *. nra. }
    assert (dbl (g_accfac g) == g_accfac g) as E2.
    { apply (dbl_exact z 0); [|exact Z]. setoid_replace (2 ^ 0) with 1 in Z by reflexivity.
      assert (0 <= z)%Z by (rewrite Zle_Qle; change (inject_Z 0) with 0; lra). rewrite Z.abs_eq by assumption.
      rewrite Zle_Qle, p2_Z by lia. set (c := 2 ^ 53) in *. lra. }
    rewrite (dbl_proper _ (interval g)) by (unfold interval; rewrite E1, E2; reflexivity).
    apply unit_dbl; [exact HU|lra|]. set (c := 2 ^ 53 * 2 ^ k) in *. lra.
  Qed.
  Lemma units_add x y : units k x -> units k y -> units k (x + y).
  Proof. intros [a A] [b C]. exists (a + b)%Z. rewrite A, C, inject_Z_plus. ring. Qed.
  Lemma units_mul n x : units k x -> units k (qn n * x).
  Proof. intros [a A]. exists (Z.of_nat n * a)%Z. rewrite A, inject_Z_mult. unfold qn. ring. Qed.
  Lemma exact_t n : (n <= updates g)%nat -> k_t (after dbl g n) == g_tstart g + qn n * interval g.
  Proof.
    destruct (updates_spec g W) as (M & EM & L & U). pose proof interval_pos as HP.
    assert (forall j, (j <= updates g)%nat -> dbl (g_tstart g + qn j * interval g) == g_tstart g + qn j * interval g) as X.
    { intros j J. apply unit_dbl.
      - apply units_add; [destruct B as (? & _); assumption|]. apply units_mul, interval_units.
      - destruct W as (T0 & _). pose proof (qn_0 j). nra.
      - destruct B as (_ & _ & _ & _ & _ & _ & _ & BS). rewrite EM in J. pose proof (qn_le _ _ J). rewrite qn_S in H.
        set (c := 2 ^ 53 * 2 ^ k) in *. nra. }
    induction n as [|n IH]; intro N.
    - rewrite after_t_0. rewrite <- (X 0%nat N). apply dbl_proper. unfold qn. simpl. ring.
    - rewrite after_t_S. rewrite <- (X (S n) N). apply dbl_proper. rewrite IH by lia. rewrite dbl_interval, qn_S. ring.
  Qed.
  Lemma exact_tstop : dbl (g_tstop g) == g_tstop g.
  Proof.
    pose proof interval_pos. destruct W as (T0 & T1 & _). destruct B as (_ & US & _ & _ & _ & _ & _ & BS). apply unit_dbl; [exact US|lra|].
    set (c := 2 ^ 53 * 2 ^ k) in *. lra.
  Qed.
  Lemma exact_run fuel : (updates g <= fuel)%nat -> ticking dbl g fuel = Some (after dbl g (updates g)).
  Proof.
    intro F. destruct (updates_spec g W) as (M & EM & L & U). pose proof interval_pos as HP.
    apply ticking_after; [exact F| |].
    - intros j J. rewrite exact_t by lia. rewrite exact_tstop. rewrite EM in J. assert (qn j <= qn M) by (apply qn_le; lia). nra.
    - rewrite exact_t by lia. rewrite exact_tstop, EM. exact U.
  Qed.
  Variable m : nat.
  Hypotheses (T0 : g_tstart g == 0) (M0 : (0 < m)%nat) (O : g_out g == qn m * interval g).
  Lemma every_S n : every m (S n) = every m n ++ (if (S n mod m =? 0)%nat then [S n] else []).
  Proof. unfold every. rewrite (seq_S (S n)), filter_app. cbn [filter]. reflexivity. Qed.
  Lemma exact_outs n : (n <= updates g)%nat ->
    k_outs (after dbl g n) = every m n /\ k_tout (after dbl g n) == qn (n - n mod m) * interval g.
  Proof.
    pose proof interval_pos as HP.
    assert (dbl (g_out g) == g_out g) as EO.
    { destruct W as (_ & _ & _ & _ & P). destruct B as (_ & _ & _ & UO & _ & _ & BO & _). apply unit_dbl; [exact UO|lra|exact BO]. }
    induction n as [|n IH]; intro N.
    - cbn [after]. unfold write. cbn [k_t k_tout k_steps k_outs].
      assert (dbl (g_tstart g) == 0) as Z by (rewrite (dbl_proper _ _ T0); reflexivity).
      destruct (Qeq_bool_spec (dbl (g_tstart g)) 0) as [_|C]; [|contradiction]. rewrite orb_true_r. cbn [k_outs k_tout].
      rewrite Nat.mod_0_l by lia. split; [unfold every; cbn; rewrite Nat.mod_0_l by lia; reflexivity|]. rewrite Z. unfold qn. simpl. ring.
    - destruct (IH ltac:(lia)) as [IO IT]. cbn [after]. unfold write.
      set (a := advance dbl g (after dbl g n)).
      assert (k_t a == qn (S n) * interval g) as Ta.
      { unfold a. pose proof (exact_t (S n) N) as E. cbn [after] in E. rewrite write_t in E. rewrite E, T0. ring. }
      assert (k_tout a = k_tout (after dbl g n)) as Oa by reflexivity. assert (k_outs a = every m n) as Ua by exact IO.
      assert (k_steps a = S n) as Sa by (unfold a; cbn [advance k_steps]; rewrite after_steps; reflexivity).
      pose proof (Nat.mod_upper_bound n m ltac:(lia)) as R. pose proof (Nat.div_mod n m ltac:(lia)) as Q.
      set (r := (n mod m)%nat) in *. set (q := (n / m)%nat) in *.
      assert (k_t a - k_tout a == qn (S r) * interval g) as D.
      { rewrite Ta, Oa, IT. rewrite !qn_S. assert (qn n == qn (n - r) + qn r) as E by (rewrite <- qn_plus; replace (n - r + r)%nat with n by lia; reflexivity).
        rewrite E. ring. }
      assert (dbl (k_t a - k_tout a) == qn (S r) * interval g) as DD.
      { rewrite (dbl_proper _ _ D). apply unit_dbl; [apply units_mul, interval_units| |].
        - pose proof (qn_0 (S r)). nra.
        - destruct B as (_ & _ & _ & _ & _ & _ & BO & _). rewrite O in BO. assert (qn (S r) <= qn m) by (apply qn_le; lia).
          set (c := 2 ^ 53 * 2 ^ k) in *. nra. }
      assert (~ k_t a == 0) as NZ. { rewrite Ta, qn_S. pose proof (qn_0 n). nra. }
      destruct (Qeq_bool_spec (k_t a) 0) as [C|_]; [contradiction|]. rewrite orb_false_r.
      assert ((S n mod m = if S r =? m then 0 else S r)%nat) as MS.
      { destruct (Nat.eqb_spec (S r) m) as [E|E].
        - replace (S n) with ((q + 1) * m)%nat by nia. apply Nat.mod_mul. lia.
        - symmetry. apply (Nat.mod_unique _ _ q); lia. }
      rewrite every_S, MS.
      destruct (Qle_bool_spec (dbl (g_out g)) (dbl (k_t a - k_tout a))) as [H|H].
      + assert (S r = m) as E.
        { rewrite EO, O, DD in H. destruct (Nat.eq_dec (S r) m) as [E|E]; [exact E|]. exfalso.
          assert (qn (S r) + 1 <= qn m) by (rewrite <- qn_S; apply qn_le; lia). nra. }
        rewrite E, Nat.eqb_refl. cbn [k_outs k_tout]. rewrite Ua, Sa. split; [reflexivity|]. rewrite Ta. replace (S n - 0)%nat with (S n) by lia. reflexivity.
      + assert (S r <> m) as E.
        { intro E. rewrite EO, O, DD, E in H. lra. }
        destruct (Nat.eqb_spec (S r) m) as [C|_]; [contradiction|]. cbn [Nat.eqb]. rewrite app_nil_r. split; [exact Ua|].
        rewrite Oa, IT. replace (S n - S r)%nat with (n - r)%nat by lia. reflexivity.
  Qed.
End exact.

Lemma binary_clock k g fuel : forward g -> binary k g -> (updates g <= fuel)%nat ->
  exists r, ticking dbl g fuel = Some r /\ k_steps r = updates g /\ k_t r == g_tstart g + inject_Z (Z.of_nat (updates g)) * interval g.
Proof.
  intros W B F. exists (after dbl g (updates g)). split; [apply (exact_run k g W B fuel F)|]. split; [apply after_steps|].
  apply (exact_t k g W B). lia.
Qed.
Lemma binary_output k g m fuel : forward g -> binary k g -> g_tstart g == 0 -> (0 < m)%nat -> g_out g == inject_Z (Z.of_nat m) * interval g ->
  (updates g <= fuel)%nat -> exists r, ticking dbl g fuel = Some r /\ k_outs r = every m (updates g).
Proof.
  intros W B T0 M0 O F. exists (after dbl g (updates g)). split; [apply (exact_run k g W B fuel F)|].
  apply (exact_outs k g W B m T0 M0 O). lia.
Qed.
