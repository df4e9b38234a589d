(** Lemmas about the solvers 'pieter' and 'steadystatepieter'. *)
From Coq Require Import QArith Lia Lqa List Bool Arith Setoid.
From Verif Require Import Base Num Utils_Model Solver_Model Solver_Spec Linear Solver_Proofs Pieter_Model Pieter_Spec.
Import ListNotations.
Open Scope Q_scope.

Section Stencil.
Variable k : pcfg.
Variable f : flow.
Hypothesis Hny : (ny k <> 1)%nat.
Hypothesis Hnx : (1 <= nx k)%nat.
Notation co := (coefs k f).

Lemma first_am1 r c a : am1 a = 0 -> am1 (with_first k f r c a) = 0.
Proof. intros H. unfold with_first. destruct (Nat.eqb r 0); [|exact H]. destruct (lateral k); first [exact H | reflexivity]. Qed.
Lemma last_am1 r c a : am1 a = 0 -> am1 (with_last k f r c a) = 0.
Proof. intros H. unfold with_last. destruct (Nat.eqb r (ny k)); [|exact H]. destruct (lateral k); first [exact H | reflexivity]. Qed.
Lemma first_ap1 r c a : ap1 a = 0 -> ap1 (with_first k f r c a) = 0.
Proof. intros H. unfold with_first. destruct (Nat.eqb r 0); [|exact H]. destruct (lateral k); first [exact H | reflexivity]. Qed.
Lemma last_ap1 r c a : ap1 a = 0 -> ap1 (with_last k f r c a) = 0.
Proof. intros H. unfold with_last. destruct (Nat.eqb r (ny k)); [|exact H]. destruct (lateral k); first [exact H | reflexivity]. Qed.
Lemma am1_first r : am1 (co r 0) = 0.
Proof.
  unfold coefs. apply last_am1, first_am1. unfold with_onshore. destruct (Nat.eqb_spec 0 (nx k)) as [H|_]; [lia|].
  unfold with_offshore. change (Nat.eqb 0 0) with true. cbv iota. destruct (offshore k); reflexivity.
Qed.
Lemma ap1_last r : ap1 (co r (nx k)) = 0.
Proof.
  assert (E : ap1 (inner k f r (nx k)) = 0) by (unfold inner; cbv zeta; cbn [ap1]; rewrite Nat.ltb_irrefl; reflexivity).
  unfold coefs. apply last_ap1, first_ap1. unfold with_onshore, with_offshore. destruct (Nat.eqb_spec (nx k) 0) as [H|_]; [lia|]. rewrite Nat.eqb_refl.
  destruct (onshore k); first [exact E | reflexivity].
Qed.
Notation co_flat p := (flat k (fun r c => p (co r c))).
Lemma cf (p : coef -> Q) r c : (c <= nx k)%nat -> co_flat p (r * width k + c) = p (co r c).
Proof. intros. apply (flat_rc k (fun r c => p (co r c))). assumption. Qed.

(** A row of the matrix times a vector. *)
Lemma prow x r c : (r <= ny k)%nat -> (c <= nx k)%nat ->
  mulv (cells k) (pmatrix k f) x (r * width k + c) ==
  am1 (co r c) * cell k x r (c - 1) + a0 (co r c) * cell k x r c + ap1 (co r c) * cell k x r (S c)
  + (if Nat.eqb (ny k) 0 then 0 else amx (co r c) * cell k x (prev_row k r) c + apx (co (next_row k r) c) * cell k x (next_row k r) c).
Proof.
  intros Hr Hc. set (i := (r * width k + c)%nat). pose proof (rc_lt k r c Hr Hc) as Hi. fold i in Hi. unfold cell.
  assert (HA0 : sumn (cells k) (fun j => above 0 (co_flat a0) i j * x j) == a0 (co r c) * x (r * width k + c)%nat).
  { rewrite row_above. rewrite Nat.add_0_r. destruct (Nat.ltb_spec i (cells k)); [|lia]. unfold i. rewrite cf by exact Hc. reflexivity. }
  assert (Hb1 : sumn (cells k) (fun j => below 1 (fun m => co_flat am1 (m + 1)%nat) i j * x j) == am1 (co r c) * x (r * width k + (c - 1))%nat).
  { rewrite row_below by exact Hi. unfold i. destruct c as [|c].
    - rewrite am1_first. destruct (Nat.leb_spec 1 (r * width k + 0)) as [H|H]; [|ring].
      replace (r * width k + 0 - 1 + 1)%nat with (r * width k + 0)%nat by lia. rewrite cf by lia. rewrite am1_first. ring.
    - destruct (Nat.leb_spec 1 (r * width k + S c)) as [H|H]; [|lia]. replace (r * width k + S c - 1 + 1)%nat with (r * width k + S c)%nat by lia.
      replace (r * width k + (S c - 1))%nat with (r * width k + S c - 1)%nat by lia. rewrite cf by lia. reflexivity. }
  assert (Ha1 : sumn (cells k) (fun j => above 1 (co_flat ap1) i j * x j) == ap1 (co r c) * x (r * width k + S c)%nat).
  { rewrite row_above. unfold i. rewrite cf by exact Hc. replace (r * width k + c + 1)%nat with (r * width k + S c)%nat by lia.
    destruct (Nat.ltb_spec (r * width k + S c) (cells k)) as [H|H]; [reflexivity|]. destruct (Nat.eq_dec c (nx k)) as [->|E].
    rewrite ap1_last. ring. pose proof (rc_lt k r (S c) Hr ltac:(lia)). lia. }
  unfold mulv, pmatrix. cbv zeta. destruct (Nat.eqb_spec (ny k) 0) as [Hz|Hz].
  - rewrite (sumn_ext _ _ (fun j => below 1 (fun m => co_flat am1 (m + 1)%nat) i j * x j + above 0 (co_flat a0) i j * x j
      + above 1 (co_flat ap1) i j * x j)) by (intros; fold i; ring).
    rewrite !sumn_plus, HA0, Hb1, Ha1. ring.
  - assert (Hw : (0 < width k)%nat) by (unfold width; lia).
    assert (Hbw : sumn (cells k) (fun j => below (width k) (fun m => co_flat amx (width k + m)%nat) i j * x j) ==
      match r with O => 0 | S r' => amx (co r c) * x (r' * width k + c)%nat end).
    { rewrite row_below by exact Hi. unfold i. destruct r as [|r].
      - destruct (Nat.leb_spec (width k) (0 * width k + c)) as [H|H]; [unfold width in H; lia | reflexivity].
      - destruct (Nat.leb_spec (width k) (S r * width k + c)) as [H|H]; [|lia].
        replace (width k + (S r * width k + c - width k))%nat with (S r * width k + c)%nat by lia.
        replace (S r * width k + c - width k)%nat with (r * width k + c)%nat by lia. rewrite !cf by exact Hc. reflexivity. }
    assert (Haw : sumn (cells k) (fun j => above (width k) (fun m => co_flat apx (width k + m)%nat) i j * x j) ==
      if Nat.eqb r (ny k) then 0 else apx (co (S r) c) * x (S r * width k + c)%nat).
    { rewrite row_above. unfold i. replace (r * width k + c + width k)%nat with (S r * width k + c)%nat by lia.
      replace (width k + (r * width k + c))%nat with (S r * width k + c)%nat by lia. rewrite cf by exact Hc.
      destruct (Nat.eqb_spec r (ny k)) as [->|H].
      - destruct (Nat.ltb_spec (S (ny k) * width k + c) (cells k)) as [H'|H']; [unfold cells in H'; lia | reflexivity].
      - destruct (Nat.ltb_spec (S r * width k + c) (cells k)) as [H'|H']; [reflexivity|]. pose proof (rc_lt k (S r) c ltac:(lia) Hc). lia. }
    assert (Hbj : sumn (cells k) (fun j => below (width k * ny k) (co_flat apx) i j * x j) ==
      if Nat.eqb r (ny k) then apx (co 0 c) * x (0 * width k + c)%nat else 0).
    { rewrite row_below by exact Hi. unfold i. destruct (Nat.eqb_spec r (ny k)) as [->|H].
      - destruct (Nat.leb_spec (width k * ny k) (ny k * width k + c)) as [H'|H']; [|lia].
        replace (ny k * width k + c - width k * ny k)%nat with (0 * width k + c)%nat by lia. rewrite !cf by exact Hc. reflexivity.
      - destruct (Nat.leb_spec (width k * ny k) (r * width k + c)) as [H'|H']; [|reflexivity].
        assert (S r * width k <= ny k * width k)%nat by (apply Nat.mul_le_mono_r; lia). unfold width in *. lia. }
    assert (Haj : sumn (cells k) (fun j => above (width k * ny k) (co_flat amx) i j * x j) ==
      match r with O => amx (co r c) * x (ny k * width k + c)%nat | S _ => 0 end).
    { rewrite row_above. unfold i. destruct r as [|r].
      - replace (0 * width k + c + width k * ny k)%nat with (ny k * width k + c)%nat by lia. rewrite !cf by exact Hc.
        destruct (Nat.ltb_spec (ny k * width k + c) (cells k)) as [H'|H']; [reflexivity|]. pose proof (rc_lt k (ny k) c ltac:(lia) Hc). lia.
      - destruct (Nat.ltb_spec (S r * width k + c + width k * ny k) (cells k)) as [H'|H']; [unfold cells in H'; lia | reflexivity]. }
    rewrite (sumn_ext _ _ (fun j => below (width k * ny k) (co_flat apx) i j * x j
      + below (width k) (fun m => co_flat amx (width k + m)%nat) i j * x j
      + below 1 (fun m => co_flat am1 (m + 1)%nat) i j * x j + above 0 (co_flat a0) i j * x j + above 1 (co_flat ap1) i j * x j
      + above (width k) (fun m => co_flat apx (width k + m)%nat) i j * x j
      + above (width k * ny k) (co_flat amx) i j * x j)) by (intros; fold i; ring).
    rewrite !sumn_plus, HA0, Hb1, Ha1, Hbw, Haw, Hbj, Haj. unfold next_row, prev_row. destruct (Nat.eqb_spec r (ny k)), r; try ring; lia.
Qed.

(** A column of the matrix, every row weighted. *)
Lemma pcolumn (v : grid) r c : (r <= ny k)%nat -> (c <= nx k)%nat ->
  sumn (cells k) (fun i => flat k v i * pmatrix k f i (r * width k + c)) ==
  v r c * a0 (co r c) + (if Nat.ltb c (nx k) then v r (S c) * am1 (co r (S c)) else 0) + (if Nat.leb 1 c then v r (c - 1)%nat * ap1 (co r (c - 1)) else 0)
  + (if Nat.eqb (ny k) 0 then 0 else v (next_row k r) c * amx (co (next_row k r) c) + v (prev_row k r) c * apx (co r c)).
Proof.
  intros Hr Hc. set (j := (r * width k + c)%nat). pose proof (rc_lt k r c Hr Hc) as Hj. fold j in Hj.
  assert (HA0 : sumn (cells k) (fun i => flat k v i * above 0 (co_flat a0) i j) == v r c * a0 (co r c)).
  { rewrite col_above by exact Hj. cbn [Nat.leb]. rewrite Nat.sub_0_r. unfold j. rewrite cf, flat_rc by exact Hc. reflexivity. }
  assert (Hb1 : sumn (cells k) (fun i => flat k v i * below 1 (fun m => co_flat am1 (m + 1)%nat) i j) ==
    if Nat.ltb c (nx k) then v r (S c) * am1 (co r (S c)) else 0).
  { rewrite col_below. unfold j. destruct (Nat.ltb_spec c (nx k)) as [H|H].
    - replace (r * width k + c + 1)%nat with (r * width k + S c)%nat by lia. destruct (Nat.ltb_spec (r * width k + S c) (cells k)) as [H'|H'].
      rewrite cf, flat_rc by lia. reflexivity. pose proof (rc_lt k r (S c) Hr H). lia.
    - replace (r * width k + c + 1)%nat with (S r * width k + 0)%nat by (unfold width; lia). rewrite cf by lia. rewrite am1_first.
      destruct (Nat.ltb _ _); ring. }
  assert (Ha1 : sumn (cells k) (fun i => flat k v i * above 1 (co_flat ap1) i j) == if Nat.leb 1 c then v r (c - 1)%nat * ap1 (co r (c - 1)) else 0).
  { rewrite col_above by exact Hj. unfold j. destruct c as [|c].
    - change (Nat.leb 1 0) with false. cbv iota. destruct r as [|r]. reflexivity. replace (S r * width k + 0 - 1)%nat with (r * width k + nx k)%nat by (unfold width; lia).
      rewrite cf by lia. rewrite ap1_last. destruct (Nat.leb _ _); ring.
    - replace (Nat.leb 1 (r * width k + S c)) with true by (symmetry; apply Nat.leb_le; lia). change (Nat.leb 1 (S c)) with true. cbv iota.
      replace (r * width k + S c - 1)%nat with (r * width k + (S c - 1))%nat by lia. rewrite cf, flat_rc by lia. reflexivity. }
  unfold pmatrix. cbv zeta. destruct (Nat.eqb_spec (ny k) 0) as [Hz|Hz].
  - rewrite (sumn_ext _ _ (fun i => flat k v i * below 1 (fun m => co_flat am1 (m + 1)%nat) i j + flat k v i * above 0 (co_flat a0) i j
      + flat k v i * above 1 (co_flat ap1) i j)) by (intros; fold j; ring).
    rewrite !sumn_plus, HA0, Hb1, Ha1. ring.
  - assert (Hw : (0 < width k)%nat) by (unfold width; lia).
    assert (Hbw : sumn (cells k) (fun i => flat k v i * below (width k) (fun m => co_flat amx (width k + m)%nat) i j) ==
      if Nat.eqb r (ny k) then 0 else v (S r) c * amx (co (S r) c)).
    { rewrite col_below. unfold j. replace (r * width k + c + width k)%nat with (S r * width k + c)%nat by lia.
      replace (width k + (r * width k + c))%nat with (S r * width k + c)%nat by lia. rewrite cf, flat_rc by exact Hc.
      destruct (Nat.eqb_spec r (ny k)) as [->|H].
      - destruct (Nat.ltb_spec (S (ny k) * width k + c) (cells k)) as [H'|H']; [unfold cells in H'; lia | reflexivity].
      - destruct (Nat.ltb_spec (S r * width k + c) (cells k)) as [H'|H']; [reflexivity|]. pose proof (rc_lt k (S r) c ltac:(lia) Hc). lia. }
    assert (Haw : sumn (cells k) (fun i => flat k v i * above (width k) (fun m => co_flat apx (width k + m)%nat) i j) ==
      match r with O => 0 | S r' => v r' c * apx (co r c) end).
    { rewrite col_above by exact Hj. unfold j. destruct r as [|r].
      - destruct (Nat.leb_spec (width k) (0 * width k + c)) as [H|H]; [unfold width in H; lia | reflexivity].
      - destruct (Nat.leb_spec (width k) (S r * width k + c)) as [H|H]; [|lia].
        replace (width k + (S r * width k + c - width k))%nat with (S r * width k + c)%nat by lia.
        replace (S r * width k + c - width k)%nat with (r * width k + c)%nat by lia. rewrite cf, flat_rc by exact Hc. reflexivity. }
    assert (Hbj : sumn (cells k) (fun i => flat k v i * below (width k * ny k) (co_flat apx) i j) ==
      match r with O => v (ny k) c * apx (co r c) | S _ => 0 end).
    { rewrite col_below. unfold j. destruct r as [|r].
      - replace (0 * width k + c + width k * ny k)%nat with (ny k * width k + c)%nat by lia. rewrite cf, flat_rc by exact Hc.
        destruct (Nat.ltb_spec (ny k * width k + c) (cells k)) as [H'|H']; [reflexivity|]. pose proof (rc_lt k (ny k) c ltac:(lia) Hc). lia.
      - destruct (Nat.ltb_spec (S r * width k + c + width k * ny k) (cells k)) as [H'|H']; [unfold cells in H'; lia | reflexivity]. }
    assert (Haj : sumn (cells k) (fun i => flat k v i * above (width k * ny k) (co_flat amx) i j) ==
      if Nat.eqb r (ny k) then v 0%nat c * amx (co 0 c) else 0).
    { rewrite col_above by exact Hj. unfold j. destruct (Nat.eqb_spec r (ny k)) as [->|H].
      - destruct (Nat.leb_spec (width k * ny k) (ny k * width k + c)) as [H'|H']; [|lia].
        replace (ny k * width k + c - width k * ny k)%nat with (0 * width k + c)%nat by lia. rewrite cf, flat_rc by exact Hc. reflexivity.
      - destruct (Nat.leb_spec (width k * ny k) (r * width k + c)) as [H'|H']; [|reflexivity].
        assert (S r * width k <= ny k * width k)%nat by (apply Nat.mul_le_mono_r; lia). unfold width in *. lia. }
    rewrite (sumn_ext _ _ (fun i => flat k v i * below (width k * ny k) (co_flat apx) i j
      + flat k v i * below (width k) (fun m => co_flat amx (width k + m)%nat) i j
      + flat k v i * below 1 (fun m => co_flat am1 (m + 1)%nat) i j + flat k v i * above 0 (co_flat a0) i j
      + flat k v i * above 1 (co_flat ap1) i j
      + flat k v i * above (width k) (fun m => co_flat apx (width k + m)%nat) i j
      + flat k v i * above (width k * ny k) (co_flat amx) i j)) by (intros; fold j; ring).
    rewrite !sumn_plus, HA0, Hb1, Ha1, Hbw, Haw, Hbj, Haj. unfold next_row, prev_row. destruct (Nat.eqb_spec r (ny k)), r; try ring; lia.
Qed.

Lemma poffdiag : (forall r c, (r <= ny k)%nat -> (c <= nx k)%nat -> am1 (co r c) <= 0 /\ ap1 (co r c) <= 0 /\ amx (co r c) <= 0 /\ apx (co r c) <= 0) ->
  offdiag_nonpos (cells k) (pmatrix k f).
Proof.
  intros H i j Hi Hj Hij.
  assert (Hd : above 0 (co_flat a0) i j <= 0) by (unfold above; destruct (Nat.eqb_spec j (i + 0)); [lia | apply Qle_refl]).
  assert (F : forall p : coef -> Q, (forall r c, (r <= ny k)%nat -> (c <= nx k)%nat -> p (co r c) <= 0) -> forall m, (m < cells k)%nat -> co_flat p m <= 0)
    by (intros p Hp m Hm; apply (flat_all k (fun q => q <= 0) (fun r c => p (co r c)) Hp m Hm)).
  assert (Fm1 := F am1 (fun r c Hr Hc => proj1 (H r c Hr Hc))).
  assert (Fp1 := F ap1 (fun r c Hr Hc => proj1 (proj2 (H r c Hr Hc)))).
  assert (Fmx := F amx (fun r c Hr Hc => proj1 (proj2 (proj2 (H r c Hr Hc))))).
  assert (Fpx := F apx (fun r c Hr Hc => proj2 (proj2 (proj2 (H r c Hr Hc))))).
  assert (H1 : below 1 (fun m => co_flat am1 (m + 1)%nat) i j <= 0) by (apply (below_sign (cells k)); auto).
  assert (P1 : above 1 (co_flat ap1) i j <= 0) by (apply (above_sign (cells k)); auto; intros; apply Fp1; lia).
  unfold pmatrix. cbv zeta. destruct (Nat.eqb_spec (ny k) 0) as [Hz|Hz]. lra.
  assert (Hbj : below (width k * ny k) (co_flat apx) i j <= 0) by (apply (below_sign (cells k)); auto; intros; apply Fpx; lia).
  assert (Haj : above (width k * ny k) (co_flat amx) i j <= 0) by (apply (above_sign (cells k)); auto; intros; apply Fmx; lia).
  assert (Hbw : below (width k) (fun m => co_flat amx (width k + m)%nat) i j <= 0) by (apply (below_sign (cells k)); auto; intros; apply Fmx; lia).
  assert (Haw : above (width k) (fun m => co_flat apx (width k + m)%nat) i j <= 0) by (apply (above_sign (cells k)); auto; intros; apply Fpx; lia).
  lra.
Qed.
End Stencil.

