(** Closed forms of the lemmas of C148-C151, and concrete cases. *)
From Coq Require Import Reals Lra Lia Psatz ZArith.
From Verif Require Import Base Shear_Model Shear_Spec Shear_Proofs Shear_Grid Shear_Interp Shear_Stress Shear_Fourier Shear_Bubble Shear_Cases Filter_Model Filter_Spec Filter_Proofs Filter_Smooth.
From Coq Require Import List.
Import ListNotations.
Open Scope R_scope.

Lemma c148_above : forall m n dx c mu xmax z it yf s, separation_surface m n dx c mu xmax z it yf = Ok s -> forall r l, z r l <= s r l.
Proof. exact surface_above. Qed.
Lemma c148_gentle : forall m n dx c mu xmax z it yf, (3 <= n)%nat -> (forall r, (r < m)%nat -> gentle n dx mu (z r)) ->
  exists s, separation_surface m n dx c mu xmax z it yf = Ok s /\ forall r l, 0 <= z r l -> s r l = z r l.
Proof. exact surface_gentle. Qed.
Lemma c148_off : forall m n dx c mu xmax z, exists s, separation_surface m n dx c mu xmax z 0 false = Ok s /\ forall r l, (r < m)%nat -> s r l = separation n dx c mu (z r) l.
Proof. exact surface_plain. Qed.
Lemma c149_never : forall n dx xmax k, (0 < n)%nat -> 0 < dx -> 0 < xmax -> ~ low_pass n (filtered n dx xmax k).
Proof.
  intros n dx xmax k Hn Hd Hx [L Z]. destruct k as [|k].
  - specialize (Z 0%nat Hn). rewrite filtered_scaled, damping_0 in Z by exact Hn. cbn in Z. rewrite Rabs_right in Z by lra. lra.
  - specialize (L 1 0%nat Hn). rewrite filtered_scaled in L by exact Hn. pose proof (damping_lt dx xmax (S k) Hd Hx ltac:(lia)). lra.
Qed.
Lemma c149_low_pass : exists n dx xmax k, (0 < n)%nat /\ 0 < dx /\ 0 < xmax /\ ~ low_pass n (filtered n dx xmax k).
Proof. exists 60%nat, 1, 60, 0%nat. split; [lia|]. split; [lra|]. split; [lra|]. apply c149_never; [lia|lra|lra]. Qed.
Lemma c151_ok : forall m n dx c mu xmax z it yf, (m <= n)%nat -> exists s, separation_surface m n dx c mu xmax z it yf = Ok s.
Proof. exact surface_ok. Qed.
Lemma c151_raises : forall m n dx c mu xmax z it yf r i, (0 < it)%nat -> (n <= r < m)%nat -> In i (bubbles n dx mu (z r)) -> separation_surface m n dx c mu xmax z it yf = Raise IndexError.
Proof. exact surface_raises. Qed.

(** Cliffs of 4 m in all rows, cells of 1 m. *)
Definition cliffs : field := fun _ => cliff 10 4.
Lemma steep_enough : 30 < degrees (atan (4 / (2 * 1))).
Proof. apply cliff_case. Qed.
Lemma cliffs_bubble r : bubbles 60 1 30 (cliffs r) = [9%nat].
Proof. unfold cliffs. rewrite (cliff_bubbles 60 10 1 30 4); [reflexivity | lia | lia | lra | lra | exact steep_enough]. Qed.
Lemma cliffs_value it : exists s, separation_surface 50 60 1 (2 / 10) 30 60 cliffs it false = Ok s /\ forall r, (r < 50)%nat -> s r 24%nat = 2 /\ cliffs r 24%nat = 0.
Proof.
  destruct (surface_cliff_in 50 60 10 1 (2 / 10) 30 4 60 ltac:(lia) ltac:(lia) ltac:(lra) ltac:(lra) ltac:(lra) steep_enough it ltac:(lia)) as (s & E & V). exists s. split; [exact E|].
  intros r Hr. split; [|reflexivity]. rewrite V by exact Hr. apply cliff_case.
Qed.
Lemma c148_case : exists s, separation_surface 50 60 1 (2 / 10) 30 60 cliffs 3 false = Ok s /\ forall r, (r < 50)%nat -> s r 24%nat = 2 /\ cliffs r 24%nat = 0.
Proof. apply cliffs_value. Qed.
Lemma c148_off_case : exists s, separation_surface 50 60 1 (2 / 10) 30 60 cliffs 0 false = Ok s /\ forall r, (r < 50)%nat -> s r 24%nat = 2 /\ cliffs r 24%nat = 0.
Proof. apply cliffs_value. Qed.
Lemma c148_gentle_case : (forall r, (r < 5)%nat -> gentle 10 1 30 ((fun _ _ => 2) r)) /\ exists s, separation_surface 5 10 1 (2 / 10) 30 60 (fun _ _ => 2) 3 true = Ok s /\ s 1%nat 1%nat = 2.
Proof.
  split; [intros r _; apply level_gentle|]. destruct (c148_gentle 5 10 1 (2 / 10) 30 60 (fun _ _ => 2) 3 true ltac:(lia) (fun r _ => level_gentle 2)) as (s & E & V). exists s. split; [exact E|]. apply V. lra.
Qed.
Lemma c149_case : filtered 60 1 60 0 zigzag 7%nat = - 1 /\ filtered 60 1 60 5 (fun _ => 3) 7%nat < 3.
Proof.
  rewrite !filtered_scaled by lia. rewrite damping_0. pose proof (damping_lt 1 60 5 ltac:(lra) ltac:(lra) ltac:(lia)). split; [cbn; lra | lra].
Qed.
Lemma c150_case : column_between 3 (fun r _ => if Nat.eqb r 1%nat then 5 else 1) 0%nat 1 5 /\ volume 3 (fun r _ => if Nat.eqb r 1%nat then 5 else 1) 0%nat = 7 /\
  smooth 3 (fun r _ => if Nat.eqb r 1%nat then 5 else 1) 1%nat 0%nat < 5.
Proof.
  split; [intros r Hr; destruct (Nat.eqb r 1%nat); lra|]. split; [cbn; lra|]. unfold smooth. cbn. pose proof weight_pos as W. apply (Rmult_lt_reg_r (1 + 2 * side_weight)); [lra|].
  unfold Rdiv. rewrite Rmult_assoc, Rinv_l by lra. lra.
Qed.
Lemma c150_level_case : column_between 3 (fun _ l => INR l) 4%nat (INR 4) (INR 4) /\ smooth 3 (fun _ l => INR l) 2%nat 4%nat = INR 4.
Proof. assert (C : column_between 3 (fun _ l => INR l) 4%nat (INR 4) (INR 4)) by (intros r Hr; lra). split; [exact C|]. apply smooth_level; [exact C|lia]. Qed.
Lemma c151_rows : exists m n dx c mu xmax z, 0 < dx /\ 0 < c /\ 0 < xmax /\ Shear_Spec.between m n z 0 4 /\ separation_surface m n dx c mu xmax z 1 false = Raise IndexError /\
  exists s, separation_surface m n dx c mu xmax z 0 false = Ok s.
Proof.
  exists 70%nat, 60%nat, 1, (2 / 10), 30, 60, cliffs. split; [lra|]. split; [lra|]. split; [lra|]. split; [intros r l _ _; unfold cliffs, cliff; destruct (Nat.leb l 10); lra|]. split.
  - apply (c151_raises 70 60 1 (2 / 10) 30 60 cliffs 1 false 60%nat 9%nat); [lia | lia|]. rewrite cliffs_bubble. left. reflexivity.
  - destruct (c148_off 70 60 1 (2 / 10) 30 60 cliffs) as (s & E & _). exists s. exact E.
Qed.
Lemma c151_case : (60 <= 60 < 70)%nat /\ In 9%nat (bubbles 60 1 30 (cliffs 60%nat)).
Proof. split; [lia|]. rewrite cliffs_bubble. left. reflexivity. Qed.
