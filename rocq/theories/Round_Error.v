(* The clock in doubles for any settings: rounding errors, and what they can do to the number of updates and to the output. *)
From Coq Require Import QArith Qpower Qround ZArith Bool List Arith Lia.
From Verif Require Import Base Num Time_Spec Round_Model Round_Dbl Round_Spec Round_Proofs.
Import ListNotations.
Open Scope Q_scope.

Definition uu : Q := 1 # 9007199254740992.
Lemma uu_p2 : 2 ^ (-53) == uu.
Proof. reflexivity. Qed.
Lemma dbl_pos x : 0 <= x -> x * (1 - uu) <= dbl x /\ dbl x <= x * (1 + uu).
Proof.
  intro P. pose proof (dbl_near x) as N. rewrite uu_p2 in N. unfold qabs in N.
  destruct (Qle_bool_spec 0 (dbl x - x)), (Qle_bool_spec 0 x); unfold uu in *; lra.
Qed.
Lemma dbl_err x y e T : qabs (x - y) <= e -> qabs y <= T -> qabs (dbl x - y) <= e + uu * (T + e).
Proof.
  intros E B. pose proof (dbl_near x) as N. rewrite uu_p2 in N. unfold qabs in *.
  destruct (Qle_bool_spec 0 (dbl x - x)), (Qle_bool_spec 0 x), (Qle_bool_spec 0 (x - y)), (Qle_bool_spec 0 y), (Qle_bool_spec 0 (dbl x - y)); unfold uu in *; lra.
Qed.

Lemma interval_err g : forward g ->
  qabs (dbl (dbl (g_dt g) * dbl (g_accfac g)) - interval g) <= 4 * uu * interval g.
Proof.
  intros (_ & _ & D & A & _). unfold interval. set (d := g_dt g) in *. set (a := g_accfac g) in *.
  destruct (dbl_pos d ltac:(lra)) as [D1 D2]. destruct (dbl_pos a ltac:(lra)) as [A1 A2].
  set (d' := dbl d) in *. set (a' := dbl a) in *.
  assert (0 < d') as Pd by (unfold uu in *; lra). assert (0 < a') as Pa by (unfold uu in *; lra).
  assert (0 < d * a) as Ph by nra.
  assert (d * a * ((1 - uu) * (1 - uu)) <= d' * a') as L.
  { setoid_replace (d * a * ((1 - uu) * (1 - uu))) with ((d * (1 - uu)) * (a * (1 - uu))) by ring.
    apply Qmult_le_compat_nonneg; split; try assumption; unfold uu; lra. }
  assert (d' * a' <= d * a * ((1 + uu) * (1 + uu))) as U.
  { setoid_replace (d * a * ((1 + uu) * (1 + uu))) with ((d * (1 + uu)) * (a * (1 + uu))) by ring.
    apply Qmult_le_compat_nonneg; split; try assumption; lra. }
  assert (0 < d' * a') as Pp by nra.
  destruct (dbl_pos (d' * a') ltac:(lra)) as [H1 H2]. set (h' := dbl (d' * a')) in *. set (p := d' * a') in *. set (h := d * a) in *.
  clearbody h' p h. unfold qabs. destruct (Qle_bool_spec 0 (h' - h)); unfold uu in *; lra.
Qed.

Section errors.
  Variables (g : timing) (T : Q).
  Hypothesis (W : forward g).
  Let h := interval g.

  Lemma h_pos : 0 < h.
  Proof. unfold h. exact (interval_pos g W). Qed.

  Lemma clock_err n : g_tstart g + qn n * h <= T -> (2 * qn n + 9) * uu <= 1 ->
    qabs (k_t (after dbl g n) - (g_tstart g + qn n * h)) <= uu * T * (2 * qn n + 1) + 8 * uu * (qn n * h).
  Proof.
    pose proof h_pos as HP. destruct W as (T0 & T1 & _).
    induction n as [|n IH]; intros B N.
    - rewrite after_t_0. assert (qn 0 == 0) as Z by reflexivity.
      assert (qabs (dbl (g_tstart g) - (g_tstart g + qn 0 * h)) <= uu * T) as G.
      2: { setoid_replace (uu * T * (2 * qn 0 + 1) + 8 * uu * (qn 0 * h)) with (uu * T) by (rewrite Z; ring). exact G. }
      assert (g_tstart g <= T) by (rewrite Z in B; lra).
      rewrite (qabs_proper _ (dbl (g_tstart g) - g_tstart g)) by (rewrite Z; ring).
      destruct (dbl_pos (g_tstart g) T0). unfold qabs. destruct (Qle_bool_spec 0 (dbl (g_tstart g) - g_tstart g)); unfold uu in *; lra.
    - rewrite after_t_S. rewrite qn_S in B, N. pose proof (qn_0 n) as P.
      assert (0 <= qn n * h) as PH by nra.
      specialize (IH ltac:(lra) ltac:(unfold uu in *; lra)).
      set (t := k_t (after dbl g n)) in *. pose proof (interval_err g W) as HE. fold h in HE.
      set (h' := dbl (dbl (g_dt g) * dbl (g_accfac g))) in *.
      set (e := uu * T * (2 * qn n + 1) + 8 * uu * (qn n * h)) in *.
      assert (0 <= T) as TP by lra.
      assert (e <= T) as ET.
      { assert (e <= uu * T * (2 * qn n + 9)) as E1 by (unfold e; assert (qn n * h <= T) by lra; unfold uu; lra).
        assert (uu * T * (2 * qn n + 9) == T * ((2 * qn n + 9) * uu)) as E2 by ring.
        assert ((2 * qn n + 9) * uu <= 1) as E3 by (unfold uu in *; lra).
        rewrite E2 in E1. nra. }
      assert (qabs (t + h' - (g_tstart g + qn (S n) * h)) <= e + 4 * uu * h) as S1.
      { rewrite (qabs_proper _ ((t - (g_tstart g + qn n * h)) + (h' - h))) by (rewrite qn_S; ring).
        set (x := t - (g_tstart g + qn n * h)) in *. set (y := h' - h) in *. clearbody x y e. unfold qabs in *.
        destruct (Qle_bool_spec 0 x), (Qle_bool_spec 0 y), (Qle_bool_spec 0 (x + y)); lra. }
      assert (qabs (g_tstart g + qn (S n) * h) <= T) as S2.
      { pose proof (qn_S n) as QS. unfold qabs. assert (g_tstart g + qn (S n) * h == g_tstart g + (qn n + 1) * h) as X by (rewrite QS; reflexivity).
        destruct (Qle_bool_spec 0 (g_tstart g + qn (S n) * h)); lra. }
      pose proof (dbl_err _ _ _ _ S1 S2) as S3.
      assert (uu * T * (2 * qn (S n) + 1) + 8 * uu * (qn (S n) * h) == e + (2 * uu * T + 8 * uu * h)) as F by (rewrite qn_S; unfold e; ring).
      rewrite F. clearbody e. unfold uu in *. lra.
  Qed.
  Lemma clock_err' n : g_tstart g + qn n * h <= T -> (2 * qn n + 9) * uu <= 1 ->
    qabs (k_t (after dbl g n) - (g_tstart g + qn n * h)) <= uu * T * (2 * qn n + 9).
  Proof.
    intros B N. pose proof (clock_err n B N) as E. destruct W as (T0 & T1 & _). assert (qn n * h <= T) by lra. unfold uu in *. lra.
  Qed.
End errors.

Lemma short_one g : forward g -> short g ->
  let T := g_tstop g + 2 * interval g in let N := qn (updates g) in
  uu * T * (4 * N + 25) < interval g /\ (2 * N + 11) * uu <= 1.
Proof.
  intros W H T N. pose proof (interval_pos g W) as HP. unfold short in H. fold T in H. fold (qn (updates g)) in H. fold N in H.
  assert (2 ^ 53 == 9007199254740992) as E by reflexivity. rewrite E in H.
  assert (uu * T * (4 * N + 25) < interval g) as A.
  { assert (uu * (T * (4 * N + 25)) < interval g) by (unfold uu; lra). lra. }
  split; [exact A|]. destruct W as (T0 & T1 & _). assert (interval g <= T) as B by (unfold T; lra).
  pose proof (qn_0 (updates g)) as P. fold N in P. apply Qnot_lt_le. intro C.
  assert (1 < uu * (4 * N + 25)) as D by (unfold uu in *; lra). assert (0 < T) by lra.
  assert (uu * T * (4 * N + 25) == T * (uu * (4 * N + 25))) as F by ring. nra.
Qed.

Lemma qabs_le x e : qabs x <= e -> - e <= x /\ x <= e.
Proof. unfold qabs. destruct (Qle_bool_spec 0 x); intro; lra. Qed.

Lemma near_clock g n : forward g -> short g -> (n <= S (updates g))%nat ->
  let T := g_tstop g + 2 * interval g in let E := uu * T * (2 * qn (updates g) + 11) in
  g_tstart g + qn n * interval g - E <= k_t (after dbl g n) /\ k_t (after dbl g n) <= g_tstart g + qn n * interval g + E.
Proof.
  intros W H N T E. destruct (short_one g W H) as [A B]. fold T in A. pose proof (interval_pos g W) as HP.
  destruct (updates_spec g W) as (M & EM & L & U).
  pose proof (qn_le _ _ N) as Q. rewrite qn_S in Q.
  assert (g_tstart g + qn n * interval g <= T) as X.
  { rewrite EM, qn_S in Q. unfold T. nra. }
  destruct (qabs_le _ _ (clock_err' g T W n X ltac:(unfold uu in *; lra))) as [C1 C2].
  assert (0 <= T) as TP by (destruct W as (? & ? & _); unfold T; lra).
  assert (uu * T * (2 * qn n + 9) <= E) as F.
  { unfold E. assert (T * qn n <= T * (qn (updates g) + 1)) by nra. unfold uu. lra. }
  lra.
Qed.

Lemma one_off g fuel : forward g -> short g -> (updates g + 1 <= fuel)%nat ->
  exists r, ticking dbl g fuel = Some r /\ (k_steps r = updates g \/ k_steps r = updates g - 1 \/ k_steps r = updates g + 1)%nat.
Proof.
  intros W H F. destruct (short_one g W H) as [A B]. destruct (updates_spec g W) as (M & EM & L & U). pose proof (interval_pos g W) as HP.
  set (T := g_tstop g + 2 * interval g) in *.
  assert (0 <= T) as TP by (destruct W as (? & ? & _); unfold T; lra). pose proof (qn_0 (updates g)) as NP.
  assert (0 <= T * qn (updates g)) as TN by nra.
  destruct (dbl_pos (g_tstop g) ltac:(destruct W as (? & ? & _); lra)) as [S1 S2].
  assert (g_tstop g <= T) as ST by (unfold T; lra).
  assert (forall n, (n <= S (updates g))%nat -> g_tstart g + qn n * interval g < g_tstop g - interval g \/ g_tstart g + qn n * interval g <= g_tstop g - interval g ->
          k_t (after dbl g n) <= dbl (g_tstop g)) as Lo.
  { intros n N C. destruct (near_clock g n W H N) as [_ C2]. fold T in C2. unfold uu in *. lra. }
  assert (forall j, (j < M)%nat -> k_t (after dbl g j) <= dbl (g_tstop g)) as L0.
  { intros j J. apply Lo; [lia|]. right. assert (qn j + 1 <= qn M) by (rewrite <- qn_S; apply qn_le; lia). nra. }
  assert (dbl (g_tstop g) < k_t (after dbl g (S (S M)))) as Hi.
  { destruct (near_clock g (S (S M)) W H ltac:(lia)) as [C1 _]. fold T in C1. rewrite qn_S in C1. unfold uu in *. lra. }
  rewrite EM in F |- *.
  destruct (Qlt_le_dec (dbl (g_tstop g)) (k_t (after dbl g M))) as [Q0|Q0].
  { exists (after dbl g M). split; [apply ticking_after; [lia|exact L0|exact Q0]|]. rewrite after_steps. lia. }
  destruct (Qlt_le_dec (dbl (g_tstop g)) (k_t (after dbl g (S M)))) as [Q1|Q1].
  { exists (after dbl g (S M)). split; [apply ticking_after; [lia| |exact Q1]|rewrite after_steps; lia].
    intros j J. destruct (Nat.eq_dec j M) as [->|]; [exact Q0|apply L0; lia]. }
  exists (after dbl g (S (S M))). split; [apply ticking_after; [lia| |exact Hi]|rewrite after_steps; lia].
  intros j J. destruct (Nat.eq_dec j M) as [->|]; [exact Q0|]. destruct (Nat.eq_dec j (S M)) as [->|]; [exact Q1|apply L0; lia].
Qed.

Section gaps.
  Variables (g : timing) (m : nat).
  Hypotheses (W : forward g) (H : short g) (T0 : g_tstart g == 0) (M0 : (0 < m)%nat) (O : g_out g == qn m * interval g) (OT : g_out g <= g_tstop g).

  (* The invariant: the last output was after update [a]. *)
  Definition spaced (n : nat) (k : ticker) : Prop := exists l a, k_outs k = l ++ [a] /\ k_tout k = k_t (after dbl g a) /\ (a <= n <= a + m)%nat /\
    nth_error (k_outs k) 0 = Some 0%nat /\
    (forall i x y, nth_error (k_outs k) i = Some x -> nth_error (k_outs k) (S i) = Some y -> y = (x + m)%nat \/ y = (x + m + 1)%nat).

  Lemma spaced_after n : (n <= S (updates g))%nat -> spaced n (after dbl g n).
  Proof.
    destruct (short_one g W H) as [A B]. pose proof (interval_pos g W) as HP.
    set (T := g_tstop g + 2 * interval g) in *.
    assert (0 <= T) as TP by (destruct W as (? & ? & _); unfold T; lra). pose proof (qn_0 (updates g)) as NP.
    assert (0 <= T * qn (updates g)) as TN by nra.
    induction n as [|n IH]; intro N.
    - exists [], 0%nat. assert (dbl (g_tstart g) == 0) as Z by (rewrite (dbl_proper _ _ T0); reflexivity).
      rewrite after_t_0. cbn [after]. unfold write. cbn [k_t k_tout k_steps k_outs].
      destruct (Qeq_bool_spec (dbl (g_tstart g)) 0) as [_|C]; [|contradiction]. rewrite orb_true_r. cbn [k_outs k_tout app nth_error].
      repeat split; try lia. intros i x y _ C. destruct i; discriminate C.
    - destruct (IH ltac:(lia)) as (l & a & E1 & E2 & E3 & E4 & E5). cbn [after]. unfold write.
      set (b := advance dbl g (after dbl g n)).
      assert (k_t b = k_t (after dbl g (S n))) as Tb by (cbn [after]; rewrite write_t; reflexivity).
      assert (k_tout b = k_t (after dbl g a)) as Ob by exact E2. assert (k_outs b = l ++ [a]) as Ub by exact E1.
      assert (k_steps b = S n) as Sb by (unfold b; cbn [advance k_steps]; rewrite after_steps; reflexivity).
      destruct (near_clock g (S n) W H N) as [C1 C2]. destruct (near_clock g a W H ltac:(lia)) as [C3 C4].
      fold T in C1, C2, C3, C4. rewrite <- Tb in C1, C2. rewrite <- Ob in C3, C4.
      set (E := uu * T * (2 * qn (updates g) + 11)) in *.
      set (j := (S n - a)%nat) in *.
      assert (qn (S n) == qn a + qn j) as J by (rewrite <- qn_plus; replace (a + j)%nat with (S n) by lia; reflexivity).
      assert (qabs (k_t b - k_tout b - qn j * interval g) <= 2 * E) as D.
      { rewrite T0 in *. rewrite J in C1, C2. clearbody E. unfold qabs. destruct (Qle_bool_spec 0 (k_t b - k_tout b - qn j * interval g)); lra. }
      assert (0 <= qn j * interval g) as PJ by (pose proof (qn_0 j); nra).
      assert (qn j * interval g <= T) as BJ.
      { destruct (updates_spec g W) as (M & EM & L & U). assert (qn j <= qn (S (updates g))) as Q by (apply qn_le; lia).
        rewrite EM, !qn_S in Q. rewrite T0 in L. unfold T. nra. }
      assert (qabs (qn j * interval g) <= T) as AJ by (unfold qabs; destruct (Qle_bool_spec 0 (qn j * interval g)); lra).
      destruct (qabs_le _ _ (dbl_err _ _ _ _ D AJ)) as [D1 D2].
      destruct (dbl_pos (g_out g) ltac:(destruct W as (_ & _ & _ & _ & ?); lra)) as [O1 O2].
      assert (g_out g <= T) as OB by (unfold T; lra).
      assert (2 * E <= T) as ET.
      { assert (2 * E == T * (2 * ((2 * qn (updates g) + 11) * uu))) as F by (unfold E; ring). rewrite F.
        assert (2 * ((2 * qn (updates g) + 11) * uu) <= 1).
        { apply Qnot_lt_le. intro C. assert (interval g <= T) by (destruct W as (? & ? & _); unfold T; lra).
          assert (uu * T * (4 * qn (updates g) + 25) == T * (uu * (4 * qn (updates g) + 25))) as F2 by ring.
          assert (1 < uu * (4 * qn (updates g) + 25)) by (unfold uu in *; lra). nra. }
        nra. }
      assert (2 * E + 2 * uu * T + uu * T < interval g) as G by (unfold E; unfold uu in *; lra).
      assert (~ k_t b == 0) as NZ.
      { intro C. rewrite C, T0 in C1. rewrite qn_S in C1. pose proof (qn_0 n).
        assert (E <= 2 * E) by (unfold E, uu; lra). assert (0 <= T * uu) by (unfold uu; lra). nra. }
      destruct (Qeq_bool_spec (k_t b) 0) as [C|_]; [contradiction|]. rewrite orb_false_r.
      destruct (Qle_bool_spec (dbl (g_out g)) (dbl (k_t b - k_tout b))) as [Q|Q].
      + assert (m <= j)%nat as MJ.
        { destruct (le_lt_dec m j) as [X|X]; [exact X|]. exfalso. assert (qn j + 1 <= qn m) as Y by (rewrite <- qn_S; apply qn_le; lia).
          assert (qn j * interval g + interval g <= g_out g) by (rewrite O; nra). clearbody E T. unfold uu in *. lra. }
        assert (S n = a + m \/ S n = a + m + 1)%nat as SN by lia.
        exists (l ++ [a]), (S n). cbn [k_outs k_tout]. rewrite Ub, Sb, Tb. split; [reflexivity|]. split; [reflexivity|]. split; [lia|].
        rewrite E1 in E4, E5. split; [destruct l; exact E4|].
        intros i x y X Y. destruct (Nat.lt_trichotomy (S i) (length (l ++ [a]))) as [I|[I|I]].
        * rewrite nth_error_app1 in X, Y by lia. exact (E5 i x y X Y).
        * rewrite nth_error_app1 in X by lia. rewrite nth_error_app2 in Y by lia. replace (S i - length (l ++ [a]))%nat with 0%nat in Y by lia.
          rewrite app_length in I. cbn [length] in I. rewrite nth_error_app2 in X by lia. replace (i - length l)%nat with 0%nat in X by lia.
          injection X as <-. injection Y as <-. exact SN.
        * rewrite nth_error_app2 in Y by lia. destruct (S i - length (l ++ [a]))%nat as [|z] eqn:Z; [lia|]. destruct z; discriminate Y.
      + assert (j <= m)%nat as MJ.
        { destruct (le_lt_dec j m) as [X|X]; [exact X|]. exfalso. assert (qn m + 1 <= qn j) as Y by (rewrite <- qn_S; apply qn_le; lia).
          assert (g_out g + interval g <= qn j * interval g) by (rewrite O; nra). clearbody E T. unfold uu in *. lra. }
        exists l, a. split; [exact Ub|]. split; [exact Ob|]. split; [lia|]. rewrite Ub. rewrite E1 in E4, E5. split; [exact E4|exact E5].
  Qed.
End gaps.

Lemma one_off_output g m fuel : forward g -> short g -> g_tstart g == 0 -> (0 < m)%nat -> g_out g == inject_Z (Z.of_nat m) * interval g ->
  g_out g <= g_tstop g -> (updates g + 1 <= fuel)%nat ->
  exists r, ticking dbl g fuel = Some r /\ about_every m (k_steps r) (k_outs r).
Proof.
  intros W H T0 M0 O OT F. destruct (one_off g fuel W H F) as (r & R & S). exists r. split; [exact R|].
  assert (exists n, r = after dbl g n /\ (n <= Datatypes.S (updates g))%nat) as (n & -> & N).
  { assert (forall fuel n r, turns dbl g fuel (after dbl g n) = Some r -> exists n, r = after dbl g n) as X.
    { clear. induction fuel as [|fuel IH]; intros n r; cbn [turns]; destruct (Qle_bool _ _); intro E; try discriminate E; try (injection E as <-; exists n; reflexivity).
      exact (IH (Datatypes.S n) r E). }
    destruct (X fuel 0%nat r R) as [n ->]. exists n. split; [reflexivity|]. rewrite after_steps in S. lia. }
  rewrite after_steps. destruct (spaced_after g m W H T0 M0 O OT n N) as (l & a & E1 & E2 & E3 & E4 & E5).
  split; [exact E4|]. split; [exact E5|]. intros i x X Y. rewrite E1 in X, Y. apply nth_error_None in Y. rewrite app_length in Y. cbn [length] in Y.
  assert (i < length (l ++ [a]))%nat as I by (apply nth_error_Some; congruence). rewrite app_length in I. cbn [length] in I.
  rewrite nth_error_app2 in X by lia. replace (i - length l)%nat with 0%nat in X by lia. injection X as <-. lia.
Qed.
