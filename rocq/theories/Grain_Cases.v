(** Concrete cases of grain speeds and slopes. *)
From Coq Require Import Reals Bool Arith Lia.
From Verif Require Import Base Threshold_Model Threshold_Spec Threshold_Proofs Threshold_Cases Grain_Model Grain_Spec Grain_Proofs.
From Coq Require Import Lra.
Open Scope R_scope.

(** Four rows and four columns, cells of 1 by 2 m; a bed rising 10 cm per metre landward and falling 5 cm per metre alongshore; a wind of 10 m/s at an angle. *)
Definition xs (i j : nat) : R := INR j.
Definition ys (i j : nat) : R := 2 * INR i.
Definition hill (i j : nat) : R := 3 + 1 / 10 * xs i j + - (1 / 20) * ys i j.
Definition breeze (i j : nat) : air := {| uw := 10; uws := 6; uwn := 8; ustar := 5 / 10; ustars := 3 / 10; ustarn := 4 / 10; bubble := false |}.
Lemma hill_straight : straight 3 3 xs ys (fun j => INR j) (fun i => 2 * INR i).
Proof. split; [|split]. intros i j _ _. split; reflexivity. intros j _. rewrite S_INR. lra. intros i _. rewrite S_INR. lra. Qed.
Lemma hill_sloping : sloping 3 3 xs ys hill 3 (1 / 10) (- (1 / 20)).
Proof. intros i j _ _. reflexivity. Qed.
Lemma c173_case : good_d ddef /\ 0 < uw (breeze 1 2) /\ bubble (breeze 1 2) = false /\ along (breeze 1 2) (6 / 10) (8 / 10) /\ slope_s 3 3 hill xs 1%nat 2%nat = 1 / 10 /\ slope_n 3 hill ys 1%nat 2%nat = - (1 / 20) /\
  (forall fs, fs = 6 / 10 + 2 * d_alpha ddef * slope_s 3 3 hill xs 1%nat 2%nat -> 0 < fs) /\ exists us un u, grain_speeds ddef 3 3 xs ys hill (fun _ _ => 2 / 10) breeze 1 2 = (us, un, u).
Proof.
  assert (G : good_d ddef) by (repeat split; cbn; lra). split. exact G. split. cbn. lra. split. reflexivity. split. split; cbn; intros; [split; lra | lra].
  destruct (slopes_exact 3 3 xs ys hill _ _ _ _ _ 1 2 ltac:(lia) ltac:(lia) hill_straight hill_sloping ltac:(lia) ltac:(lia)) as (S1 & S2). split. exact S1. split. exact S2.
  split. intros fs ->. rewrite S1. pose proof (d_alpha_pos ddef G). lra. do 3 eexists. reflexivity.
Qed.
Lemma c173_flat_case : good_d ddef /\ straight 3 3 xs ys (fun j => INR j) (fun i => 2 * INR i) /\ sloping 3 3 xs ys (fun _ _ => 2) 2 0 0 /\ along (breeze 1 2) (6 / 10) (8 / 10) /\ 6 / 10 * (6 / 10) + 8 / 10 * (8 / 10) = 1.
Proof. split. repeat split; cbn; lra. split. apply hill_straight. split. intros i j _ _. lra. split. split; cbn; intros; [split; lra | lra]. lra. Qed.
Lemma c174_case : (2 <= 3)%nat /\ straight 3 3 xs ys (fun j => INR j) (fun i => 2 * INR i) /\ sloping 3 3 xs ys hill 3 (1 / 10) (- (1 / 20)) /\ hill 0 0 <> hill 0 1 /\ hill 0 0 <> hill 1 0.
Proof. split. lia. split. apply hill_straight. split. apply hill_sloping. unfold hill, xs, ys. cbn [INR]. split; lra. Qed.
Lemma c174_row_case : straight 0 3 xs ys (fun j => INR j) (fun i => 2 * INR i) /\ sloping 0 3 xs ys hill 3 (1 / 10) (- (1 / 20)).
Proof. split. destruct hill_straight as (A & B & C). split; [|split]. intros; split; reflexivity. exact B. intros i Hi. lia. intros i j _ _. reflexivity. Qed.
(** A transect: no slope in the first and last cell. *)
Lemma c174_ends : exists nx x y z px py a b c, (2 <= nx)%nat /\ straight 0 nx x y px py /\ sloping 0 nx x y z a b c /\ b = 1 / 10 /\ slope_s 0 nx z x 0%nat 0%nat = 0 /\ slope_s 0 nx z x 0%nat nx = 0.
Proof. exists 3%nat, xs, ys, hill, (fun j => INR j), (fun i => 2 * INR i), 3, (1 / 10), (- (1 / 20)). split. lia. split. apply c174_row_case. split. apply c174_row_case. split. reflexivity. split; reflexivity. Qed.
(** Two rows: no alongshore slope. *)
Lemma c174_two_rows : exists nx x y z px py a b c, (2 <= nx)%nat /\ straight 1 nx x y px py /\ sloping 1 nx x y z a b c /\ c = - (1 / 20) /\ forall i j, (i <= 1)%nat -> slope_n 1 z y i j = 0.
Proof.
  exists 3%nat, xs, ys, hill, (fun j => INR j), (fun i => 2 * INR i), 3, (1 / 10), (- (1 / 20)). split. lia. split. destruct hill_straight as (A & B & C). split; [|split]. intros; split; reflexivity. exact B. intros i Hi. rewrite S_INR. lra. split. intros i j _ _. reflexivity. split. reflexivity.
  intros [|[|i]] j Hi; [reflexivity | reflexivity | lia].
Qed.
(** A grid turned by the angle of a 3-4-5 triangle, cells of 1 by 1 m: the bed rises 0.6 m per cell along the rows, the slope is taken as 1. *)
Definition xt (i j : nat) : R := 3 / 5 * INR j - 4 / 5 * INR i.
Definition yt (i j : nat) : R := 4 / 5 * INR j + 3 / 5 * INR i.
Lemma c174_turned : exists ny nx x y z, (2 <= ny)%nat /\ (2 <= nx)%nat /\ (forall i j, (x i (S j) - x i j) * (x i (S j) - x i j) + (y i (S j) - y i j) * (y i (S j) - y i j) = 1) /\
  (forall i j, (x i (S j) - x i j) * (x (S i) j - x i j) + (y i (S j) - y i j) * (y (S i) j - y i j) = 0) /\ (forall i j, z i (S j) - z i j = 3 / 5) /\ forall i j, (i <= ny)%nat -> (j <= nx)%nat -> slope_s ny nx z x i j = 1.
Proof.
  exists 3%nat, 3%nat, xt, yt, xt. split. lia. split. lia. unfold xt, yt. split. intros. rewrite S_INR. field. split. intros. rewrite !S_INR. field. split. intros. rewrite S_INR. field.
  intros i j Hi Hj. unfold slope_s, inner_s. assert (C : (j = 0 \/ j = 1 \/ j = 2 \/ j = 3)%nat) by lia. destruct C as [-> | [-> | [-> | ->]]]; cbn [Nat.ltb Nat.leb Nat.eqb andb Nat.add Nat.sub INR]; field; lra.
Qed.
