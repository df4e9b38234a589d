(** Statements about the wind generator as used in the property files, and concrete cases. *)
From Verif Require Import Base Num Solver_Model Linear Gen_Model Gen_Spec Gen_Proofs.
From Coq Require Import Lia Lqa Qfield.
Open Scope Q_scope.

(** ** C46 *)
Definition even (n : nat) : nat -> Q := fun _ => 1 / inject_Z (Z.of_nat n).
Definition middle : nat -> Q * Q := fun _ => (1 # 2, 1 # 2).
Definition gusts : nat -> Q * Q := fun _ => (9 # 10, 9 # 10).
Lemma c46_valid mx n p rs dt duration : (0 < n)%nat -> positive_below n p -> uniform rs -> 0 < dt -> exists k us,
  generate mx n p rs dt duration k = Some (Ok us) /\ length (time_series dt us) = S k /\
  (forall i row, nth_error (time_series dt us) i = Some row -> exists u, row = (inject_Z (Z.of_nat i) * dt, u, 0) /\ 0 <= u /\ (0 <= mx -> bin_size mx n <= 1 -> u <= mx)) /\
  duration <= inject_Z (Z.of_nat k) * dt /\ (k = 0%nat \/ (inject_Z (Z.of_nat k) - 1) * dt < duration).
Proof.
  intros N P U D. destruct (generated mx n p rs dt duration N P U D) as [k [us [F [L [G [LL [A B]]]]]]]. exists k, us. split; auto.
  destruct (series_rows dt us) as [S R]. split; [lia|]. split; [|auto]. intros i row E. destruct (R i row E) as [u [I X]]. apply nth_error_In in I. exists u. auto.
Qed.
Lemma uniform_middle : uniform middle.
Proof. intros i; cbn; lra. Qed.
Lemma uniform_gusts : uniform gusts.
Proof. intros i; cbn; lra. Qed.
Lemma positive_even n : (0 < n)%nat -> positive_below n (even n).
Proof. intros N i I. unfold even. pose proof (nat_pos n N). apply Qlt_shift_div_l; lra. Qed.
Lemma c46_case : positive_below 3 (even 3) /\ uniform middle /\ exists us, generate 3 3 (even 3) middle 60 150 3 = Some (Ok us) /\ map Qred us = [1 # 2; 1 # 2; 1 # 2; 1 # 2].
Proof. split; [apply positive_even; lia|]. split; [apply uniform_middle|]. eexists. split; [vm_compute; reflexivity|]. vm_compute. reflexivity. Qed.
Lemma c46_too_fast : exists mx n p rs dt duration k us u, 0 < mx /\ positive_below n p /\ uniform rs /\ 0 < dt /\ generate mx n p rs dt duration k = Some (Ok us) /\ In u us /\ mx < u.
Proof.
  exists 4, 2%nat, (even 2), gusts, 60, 60, 1%nat. eexists. eexists. split; [lra|]. split; [apply positive_even; lia|]. split; [apply uniform_gusts|]. split; [lra|].
  split; [vm_compute; reflexivity|]. split; [left; reflexivity|]. reflexivity.
Qed.
Lemma c46_endless n w : (0 < n)%nat -> (1 # 100000000) * (1 + inject_Z (Z.of_nat n)) < requested (S n) w n -> forall fuel p, settle n (S n) (requested (S n) w) p fuel = None.
Proof.
  intros N H fuel p. apply never_settles. set (q := requested (S n) w n) in *. rewrite Nat2Z.inj_succ. unfold Z.succ. rewrite inject_Z_plus. change (inject_Z 1) with 1.
  pose proof (nat_pos n N). set (k := inject_Z (Z.of_nat n)) in *.
  assert (A : (1 # 10000000000000000) * (1 + k) <= q * q).
  { apply Qle_trans with ((1 # 100000000) * (1 + k) * ((1 # 100000000) * (1 + k))).
    - assert (1 + k <= (1 + k) * (1 + k)). { setoid_replace (1 + k) with (1 * (1 + k)) at 1 by ring. apply mul_le_r; lra. } lra.
    - apply Qle_trans with (q * ((1 # 100000000) * (1 + k))); [apply mul_le_r; lra|]. rewrite (Qmult_comm q). apply mul_le_r; lra. }
  lra.
Qed.
Lemma bins_22 : bin_count 22 30 = Some 31%Z.
Proof. vm_compute. reflexivity. Qed.
Lemma bins_30 : bin_count 30 30 = Some 30%Z.
Proof. vm_compute. reflexivity. Qed.
(** 31 equal weights: the requested chance of the last bin is 1/31. *)
Lemma even_requested : requested 31 (fun _ => 1) 30 == 1 # 31.
Proof. unfold requested. rewrite memo_get by lia. rewrite sumn_const. reflexivity. Qed.
Lemma c46_hangs : exists mx n w, bin_count (Z.of_nat mx) (Z.of_nat n) = Some (Z.of_nat (S n)) /\ positive_below (S n) w /\ forall fuel, settle n (S n) (requested (S n) w) (requested (S n) w) fuel = None.
Proof.
  exists 22%nat, 30%nat, (fun _ => 1). split; [apply bins_22|]. split; [intros i I; lra|]. intros fuel. apply c46_endless; [lia|]. rewrite even_requested. reflexivity.
Qed.
Lemma c46_endless_case : bin_count 22 30 = Some 31%Z /\ (1 # 100000000) * (1 + inject_Z (Z.of_nat 30)) < requested 31 (fun _ => 1) 30.
Proof. split; [apply bins_22|]. rewrite even_requested. reflexivity. Qed.

(** ** C85 *)
Lemma c85_stationary n p : (0 < n)%nat -> positive_below n p -> stationary n (chance n p) (realised n n p) /\ is_distribution n (realised n n p).
Proof. intros N P. split; [apply kept; auto|apply realised_distribution; auto]. Qed.
Lemma c85_fixpoint n p0 p : positive_below n p -> (forall x, (x < n)%nat -> refine n n p0 p x == p x) -> stationary n (chance n p) p0.
Proof.
  intros P F. assert (E : forall x, (x < n)%nat -> p0 x == realised n n p x).
  { intros x X. pose proof (F x X) as H. unfold refine in H. cbv zeta in H. rewrite memo_get in H by auto. lra. }
  intros y Y. rewrite (sumn_ext n _ (fun x => realised n n p x * chance n p x y)) by (intros x X; rewrite (E x X); reflexivity). rewrite (E y Y). apply kept; auto.
Qed.
Lemma c85_rows n p x : (x < n)%nat -> positive_below n p -> is_distribution n (chance n p x) /\ forall y, (y < n)%nat -> cumulative n p x y <= cumulative n p x (n - 1).
Proof.
  intros X P. split; [split; [intros; apply Qlt_le_weak, chance_pos; auto|apply chance_total; auto]|]. intros y Y. unfold cumulative.
  assert (G : forall k, (S y <= k)%nat -> (k <= n)%nat -> sumn (S y) (chance n p x) <= sumn k (chance n p x)).
  { induction k as [|k IH]; intros A B; [lia|]. destruct (Nat.eq_dec (S y) (S k)) as [->|]; [lra|]. rewrite (sumn_S k). pose proof (IH ltac:(lia) ltac:(lia)).
    pose proof (chance_pos n p x k X ltac:(lia) P). lra. }
  apply G; lia.
Qed.
(** An exact fixed point with three states: p is even, the requested chances 7/22, 8/22, 7/22. *)
Definition three : nat -> Q := fun i => match i with 1%nat => 4 # 11 | _ => 7 # 22 end.
Lemma c85_case : positive_below 3 (even 3) /\ (forall x, (x < 3)%nat -> refine 3 3 three (even 3) x == even 3 x) /\ stationary 3 (chance 3 (even 3)) three.
Proof.
  assert (F : forall x, (x < 3)%nat -> refine 3 3 three (even 3) x == even 3 x) by (intros x X; do 3 (destruct x as [|x]; [vm_compute; reflexivity|]); lia).
  split; [apply positive_even; lia|]. split; auto. apply c85_fixpoint; auto. apply positive_even; lia.
Qed.

(** ** C86 *)
Lemma c86_in_bin mx n p state r j u : bin_size mx n == 1 -> 0 <= snd r < 1 -> update mx n p state r = Ok (j, u) -> inject_Z (Z.of_nat j) <= u < inject_Z (Z.of_nat j) + 1.
Proof.
  intros B R E. destruct (update_spec _ _ _ _ _ _ _ E) as [J [U _]]. assert (C : bin mx n j == inject_Z (Z.of_nat j) + (1 # 2)) by (unfold bin; rewrite B; field).
  assert (P : 0 <= inject_Z (Z.of_nat j)) by (change 0 with (inject_Z 0); rewrite <- Zle_Qle; lia). pose proof (mul_nn (snd r) (bin_size mx n) ltac:(lra) ltac:(lra)) as M.
  assert (X : snd r * bin_size mx n == snd r) by (rewrite B; ring). subst u. destruct (qmax_cases 0 (bin mx n j - (1 # 2) + snd r * bin_size mx n)) as [[-> L]|[-> L]]; lra.
Qed.
Lemma c86_case : bin_size 3 3 == 1 /\ exists j u, update 3 3 (even 3) 2 (1 # 2, 3 # 4) = Ok (j, u) /\ j = 2%nat /\ Qred u = 11 # 4.
Proof. split; [reflexivity|]. eexists. eexists. split; [vm_compute; reflexivity|]. split; [reflexivity|]. vm_compute. reflexivity. Qed.
Lemma c86_other_bin : exists mx n p state r j u, 0 < mx /\ positive_below n p /\ 0 <= fst r < 1 /\ 0 <= snd r < 1 /\ update mx n p state r = Ok (j, u) /\
  inject_Z (Z.of_nat (S j)) * bin_size mx n <= u.
Proof.
  exists 4, 2%nat, (even 2), 0%nat, (1 # 10, 9 # 10). eexists. eexists. split; [lra|]. split; [apply positive_even; lia|]. cbn [fst snd]. split; [lra|]. split; [lra|].
  split; [vm_compute; reflexivity|]. vm_compute. discriminate.
Qed.
