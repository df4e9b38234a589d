(** Lemmas about dune erosion. *)
From Coq Require Import Lia.
From Verif Require Import Base Num Utils_Model Solver_Model Linear Erosion_Model Erosion_Spec.
Open Scope Q_scope.

Lemma argmin_spec f n : (0 < n)%nat -> (argmin f n < n)%nat /\ (forall i, (i < n)%nat -> f (argmin f n) <= f i) /\ (forall i, (i < argmin f n)%nat -> f (argmin f n) < f i).
Proof.
  induction n as [|n IH]; [lia|]. intros _. destruct n as [|n].
  - cbn. destruct (Qltb (f 0%nat) (f 0%nat)); (split; [lia|]; split; [intros i I; assert (i = 0)%nat by lia; subst; lra|intros; lia]).
  - destruct (IH ltac:(lia)) as [A [B C]]. change (argmin f (S (S n))) with (let i := argmin f (S n) in if Qltb (f (S n)) (f i) then S n else i). cbv zeta. set (k := argmin f (S n)) in *. clearbody k. clear IH.
    destruct (Qltb_spec (f (S n)) (f k)).
    + split; [lia|]. split; intros i I.
      * destruct (Nat.eq_dec i (S n)) as [->|]; [lra|]. pose proof (B i ltac:(lia)). lra.
      * pose proof (B i ltac:(lia)). lra.
    + split; [lia|]. split; auto. intros i I. destruct (Nat.eq_dec i (S n)) as [->|]; [lra|]. apply B. lia.
Qed.
Lemma qabs_cases q : (0 <= q /\ qabs q == q) \/ (q < 0 /\ qabs q == - q).
Proof. unfold qabs. destruct (Qle_bool_spec 0 q); [left|right]; split; auto; try lra; reflexivity. Qed.
Lemma argmin_mono V n d1 d2 : (0 < n)%nat -> (forall i j, (i <= j)%nat -> (j < n)%nat -> V i <= V j) -> d1 <= d2 ->
  (argmin (fun k => qabs (V k - d1)) n <= argmin (fun k => qabs (V k - d2)) n)%nat.
Proof.
  intros N M D. destruct (argmin_spec (fun k => qabs (V k - d1)) n N) as [A1 [B1 C1]]. destruct (argmin_spec (fun k => qabs (V k - d2)) n N) as [A2 [B2 C2]].
  set (i := argmin (fun k => qabs (V k - d1)) n) in *. set (j := argmin (fun k => qabs (V k - d2)) n) in *. destruct (le_lt_dec i j); auto. exfalso.
  pose proof (C1 j ltac:(lia)) as X. pose proof (B2 i A1) as Y. pose proof (M j i ltac:(lia) A1) as Z. cbv beta in *.
  destruct (qabs_cases (V i - d1)) as [[? E1]|[? E1]]; destruct (qabs_cases (V j - d1)) as [[? E2]|[? E2]]; destruct (qabs_cases (V i - d2)) as [[? E3]|[? E3]]; destruct (qabs_cases (V j - d2)) as [[? E4]|[? E4]];
    rewrite E1, E2 in X; rewrite E3, E4 in Y; lra.
Qed.
Lemma argmin_below V n d : (0 < n)%nat -> (forall i j, (i <= j)%nat -> (j < n)%nat -> V i <= V j) -> forall k, (S k <= argmin (fun k => qabs (V k - d)) n)%nat -> V k < d.
Proof.
  intros N M k K. destruct (argmin_spec (fun k => qabs (V k - d)) n N) as [A [B C]]. set (i := argmin (fun k => qabs (V k - d)) n) in *. pose proof (C k ltac:(lia)) as X. cbv beta in X.
  pose proof (M k i ltac:(lia) A) as Z. destruct (qabs_cases (V i - d)) as [[? E1]|[? E1]]; destruct (qabs_cases (V k - d)) as [[? E2]|[? E2]]; rewrite E1, E2 in X; lra.
Qed.
Lemma sumn_split a m f : sumn (a + m) f == sumn a f + sumn m (fun k => f (a + k)%nat).
Proof. induction m as [|m IH]; [rewrite Nat.add_0_r, sumn_0; ring|]. rewrite Nat.add_succ_r, !sumn_S, IH. ring. Qed.
Lemma sumn_window n a m f : (a + m <= n)%nat -> (forall i, (i < n)%nat -> ((i < a)%nat \/ (a + m <= i)%nat) -> f i == 0) -> sumn n f == sumn m (fun k => f (a + k)%nat).
Proof.
  intros L Z. replace n with (a + m + (n - a - m))%nat by lia. rewrite (sumn_split (a + m)), (sumn_split a m).
  rewrite (sumn_zero a f) by (intros; apply Z; lia). rewrite (sumn_zero (n - a - m)) by (intros; apply Z; lia). ring.
Qed.

Section Row.
Variables (nx : nat) (p : params) (r : transect).
Lemma toe_cell : nearest nx (toe p) (zb r) (st0 nx p r).
Proof.
  destruct (argmin_spec (fun j => qabs (zb r j - toe p)) (S nx) ltac:(lia)) as [A [B C]]. unfold nearest, st0. split; [lia|]. split; auto. intros i I. apply B. lia.
Qed.
Lemma zbT_le j : zbT nx p r j <= zb r j.
Proof. unfold zbT. cbv zeta. destruct (Qltb_spec (zb r j) (slope p * (54 # 100) * (x r j - x r (st0 nx p r)) + toe p)); lra. Qed.
Lemma dx_nonneg : 0 <= dx r.
Proof. unfold dx. destruct (qabs_cases (x r 1%nat - x r 0%nat)) as [[? E]|[? E]]; rewrite E; lra. Qed.
Lemma zbT_toe j : increasing nx (x r) -> 0 <= slope p -> (st0 nx p r <= j <= nx)%nat -> zbT nx p r j < zb r j -> toe p <= zbT nx p r j.
Proof.
  intros I S J. unfold zbT. cbv zeta. destruct (Qltb_spec (zb r j) (slope p * (54 # 100) * (x r j - x r (st0 nx p r)) + toe p)); [lra|]. intros _.
  assert (0 <= x r j - x r (st0 nx p r)). { destruct (Nat.eq_dec (st0 nx p r) j) as [->|]; [lra|]. pose proof (I (st0 nx p r) j ltac:(lia) ltac:(lia)). lra. }
  assert (0 <= slope p * (54 # 100) * (x r j - x r (st0 nx p r))) by (apply mul_nn; lra). lra.
Qed.
Lemma Vc_mono i j : (i <= j)%nat -> Vc nx p r i <= Vc nx p r j.
Proof.
  intros L. unfold Vc, cumulative. assert (sumn (S i) (fun m => dx r * (zb r (st0 nx p r + m) - zbT nx p r (st0 nx p r + m))) <= sumn (S j) (fun m => dx r * (zb r (st0 nx p r + m) - zbT nx p r (st0 nx p r + m)))); [|lra].
  replace (S j) with (S i + (j - i))%nat by lia. rewrite sumn_split.
  assert (0 <= sumn (j - i) (fun k => dx r * (zb r (st0 nx p r + (S i + k)) - zbT nx p r (st0 nx p r + (S i + k))))); [|lra].
  apply sumn_nonneg. intros k K. apply mul_nn; [apply dx_nonneg|]. pose proof (zbT_le (st0 nx p r + (S i + k))). lra.
Qed.
Lemma scarp_le dV : (st0 nx p r + scarp nx p r dV <= nx)%nat.
Proof.
  unfold scarp. pose proof toe_cell as [T _]. destruct (Qltb dV 0); [lia|]. pose proof (argmin_spec (fun k => qabs (Vc nx p r k - dV)) (S nx - st0 nx p r) ltac:(lia)) as [A _]. lia.
Qed.
Lemma scarp_mono d1 d2 : d1 <= d2 -> (scarp nx p r d1 <= scarp nx p r d2)%nat.
Proof.
  intros D. unfold scarp. destruct (Qltb_spec d1 0); [lia|]. destruct (Qltb_spec d2 0); [lra|]. pose proof toe_cell as [T _]. apply argmin_mono; auto; [lia|]. intros i j I J. apply Vc_mono; auto.
Qed.
(** The bed with ds cells from the toe put on the trajectory. *)
Definition cut (ds : nat) (j : nat) : Q := if (Nat.leb (st0 nx p r) j && Nat.ltb j (st0 nx p r + ds))%bool then zbT nx p r j else zb r j.
Lemma cut_in ds j : (st0 nx p r <= j < st0 nx p r + ds)%nat -> cut ds j = zbT nx p r j.
Proof. intros J. unfold cut. destruct (Nat.leb_spec (st0 nx p r) j), (Nat.ltb_spec j (st0 nx p r + ds)); cbn; auto; lia. Qed.
Lemma cut_out ds j : (j < st0 nx p r)%nat \/ (st0 nx p r + ds <= j)%nat -> cut ds j = zb r j.
Proof. intros J. unfold cut. destruct (Nat.leb_spec (st0 nx p r) j), (Nat.ltb_spec j (st0 nx p r + ds)); cbn; auto; lia. Qed.
Lemma cut_le ds j : cut ds j <= zb r j.
Proof. unfold cut. destruct (_ && _)%bool; [apply zbT_le|lra]. Qed.
Lemma cut_mono d1 d2 j : (d1 <= d2)%nat -> cut d2 j <= cut d1 j.
Proof.
  intros D. destruct (le_lt_dec (st0 nx p r) j); [|rewrite !cut_out by lia; lra]. destruct (le_lt_dec (st0 nx p r + d1) j).
  - rewrite (cut_out d1) by lia. apply cut_le.
  - rewrite !cut_in by lia. lra.
Qed.
Lemma cut_volume ds : (st0 nx p r + ds <= nx)%nat -> sand nx (dx r) (zb r) - sand nx (dx r) (cut ds) == sumn ds (fun m => dx r * (zb r (st0 nx p r + m) - zbT nx p r (st0 nx p r + m))).
Proof.
  intros L. unfold sand. rewrite <- sumn_minus. rewrite (sumn_window (S nx) (st0 nx p r) ds); [|lia|].
  - apply sumn_ext. intros k K. rewrite cut_in by lia. ring.
  - intros i _ I. rewrite cut_out by auto. ring.
Qed.
Lemma removed dV : 0 <= dV -> sand nx (dx r) (zb r) - sand nx (dx r) (cut (scarp nx p r dV)) <= dV + dx r * (zb r (st0 nx p r) - zbT nx p r (st0 nx p r)).
Proof.
  intros D. rewrite cut_volume by apply scarp_le. pose proof dx_nonneg. pose proof (zbT_le (st0 nx p r)). assert (0 <= dx r * (zb r (st0 nx p r) - zbT nx p r (st0 nx p r))) by (apply mul_nn; lra).
  destruct (scarp nx p r dV) as [|k] eqn:E; [rewrite sumn_0; lra|]. assert (V : Vc nx p r k < dV).
  { unfold scarp in E. destruct (Qltb_spec dV 0); [lra|]. pose proof toe_cell as [T _]. apply (argmin_below (Vc nx p r) (S nx - st0 nx p r) dV); [lia|intros; apply Vc_mono; auto|]. rewrite E. lia. }
  unfold Vc, cumulative in V. rewrite (sumn_S 0), sumn_0, Nat.add_0_r in V. lra.
Qed.
End Row.

Lemma erode_cases cdf nx p wl Tp r r' : erode cdf nx p wl Tp r = Ok r' -> (r' = r /\ (twl wl r <= toe p)) \/
  (toe p < twl wl r /\ 0 < sigma_s r /\ exists cs, Cs p = Some cs /\ r' = with_bed r (cut nx p r (scarp nx p r (volume p wl Tp r cs (1 - cdf ((toe p - (setup r + wl)) / sigma_s r)))))).
Proof.
  unfold erode. destruct (Qltb_spec (toe p) (twl wl r)) as [T|T]; [|intros [= <-]; left; split; auto; lra]. destruct (Cs p) as [cs|]; [|discriminate]. unfold p_collision.
  destruct (Qltb_spec 0 (sigma_s r)); [|discriminate]. intros [= <-]. right. split; auto. split; auto. exists cs. auto.
Qed.
Lemma demand_volume cdf p wl Tp r cs : Cs p = Some cs -> volume p wl Tp r cs (1 - cdf ((toe p - (setup r + wl)) / sigma_s r)) = demand cdf p wl Tp r.
Proof. intros E. unfold demand. rewrite E. reflexivity. Qed.
Lemma square_nonneg q : 0 <= q * q.
Proof. destruct (Qlt_le_dec q 0); [setoid_replace (q * q) with (- q * - q) by ring|]; apply mul_nn; lra. Qed.
Lemma volume_nonneg cdf p wl Tp r cs : distribution cdf -> sensible p -> 0 < Tp -> Cs p = Some cs -> 0 <= volume p wl Tp r cs (1 - cdf ((toe p - (setup r + wl)) / sigma_s r)).
Proof.
  intros D [_ [T C]] P E. rewrite E in C. unfold volume. pose proof (D ((toe p - (setup r + wl)) / sigma_s r)) as F. set (q := cdf _) in *.
  apply mul_nn; [apply mul_nn; [apply mul_nn; lra|apply square_nonneg]|]. unfold Qdiv. apply mul_nn; [apply mul_nn; lra|]. apply Qlt_le_weak, Qinv_lt_0_compat, P.
Qed.
Lemma rows_forall cdf nx p wl Tp rs rs' : rows cdf nx p wl Tp rs = Ok rs' <-> Forall2 (fun r r' => erode cdf nx p wl Tp r = Ok r') rs rs'.
Proof.
  revert rs'. induction rs as [|r rs IH]; intros rs'; cbn [rows].
  - split; [intros [= <-]; constructor|intros H; inversion H; auto].
  - split.
    + destruct (erode cdf nx p wl Tp r) as [r'|] eqn:E; [|discriminate]. cbn [bind]. destruct (rows cdf nx p wl Tp rs) as [q|] eqn:F; [|discriminate]. cbn [bind]. intros [= <-]. constructor; auto. apply IH. auto.
    + intros H. inversion H as [|? r' ? q A B]; subst. rewrite A. cbn [bind]. apply IH in B. rewrite B. reflexivity.
Qed.
