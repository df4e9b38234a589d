(** The grid: assembled statements and concrete cases. *)
From Coq Require Import Reals.
From Verif Require Import Base Num Time_Model Rotate_Model Rotate_Spec Rotate_Proofs Grid_Model Grid_Spec Grid_Proofs.
From Verif Require Wind_Proofs.
From Coq Require Import Lra Lia.
Open Scope R_scope.

(** ** C96 *)
Lemma angle_heading ny x yf : angle ny x yf = heading (x 0%nat 1%nat - x 0%nat 0%nat) (y ny yf 0%nat 1%nat - y ny yf 0%nat 0%nat).
Proof. reflexivity. Qed.
Lemma y_two ny yf : (0 < ny)%nat -> y ny yf = yf.
Proof. intros N. unfold y. destruct (Nat.eqb_spec ny 0); [lia|reflexivity]. Qed.
Lemma c96_aligned ny nx x yf : (0 < ny)%nat -> let dx := x 0%nat 1%nat - x 0%nat 0%nat in let dy := yf 0%nat 1%nat - yf 0%nat 0%nat in
  dx <> 0 \/ dy <> 0 -> ~ (dx < 0 /\ 0 < dy) -> step (alpha (initialize ny nx x yf)) x yf 0 0 0 1 = (distance dx dy, 0).
Proof.
  intros N. cbv zeta. intros D U. rewrite angle_alpha, angle_heading, y_two by auto. unfold step. rewrite heading_aligned by auto. fold (Wind_Model.hypot (x 0%nat 1%nat - x 0%nat 0%nat) (yf 0%nat 1%nat - yf 0%nat 0%nat)).
  destruct (Rlt_dec _ 0); auto. destruct (Rle_dec _ 0); auto. exfalso. apply U. split; lra.
Qed.
Lemma c96_row nx x yf : x 0%nat 0%nat < x 0%nat 1%nat -> alpha (initialize 0 nx x yf) = 0.
Proof.
  intros H. rewrite angle_alpha. unfold angle, y. cbn [Nat.eqb]. cbv zeta. destruct (Req_EM_T _ 0); [lra|]. destruct (Rle_dec _ 0); [lra|].
  replace ((0 - 0) / (x 0%nat 1%nat - x 0%nat 0%nat)) with 0 by (field; lra). rewrite atan_0. field. apply PI_neq0.
Qed.
Lemma c96_case : let x := even 0 1 0 in let yf := even 0 1 1 in
  x 0%nat 1%nat - x 0%nat 0%nat = 1 /\ yf 0%nat 1%nat - yf 0%nat 0%nat = 1 /\ alpha (initialize 1 2 x yf) = 45.
Proof.
  cbv zeta. assert (A : even 0 1 0 0 1 - even 0 1 0 0 0 = 1) by (unfold even; cbn; ring). assert (B : even 0 1 1 0 1 - even 0 1 1 0 0 = 1) by (unfold even; cbn; ring).
  split; [exact A|]. split; [exact B|]. rewrite angle_alpha. unfold angle. rewrite y_two by lia. rewrite A, B. cbv zeta. destruct (Req_EM_T 1 0); [lra|]. destruct (Rle_dec 1 0); [lra|].
  replace (1 / 1) with 1 by field. rewrite atan_1. field. apply PI_neq0.
Qed.
Lemma c96_row_case : even 0 1 0 0 0 < even 0 1 0 0 1.
Proof. unfold even. cbn. lra. Qed.
(** A grid whose columns run to the upper left (orientation between 90 and 180 degrees) is turned the wrong way. *)
Lemma c96_upper_left : exists ny nx x yf, ascending 135 x yf /\ fst (step (alpha (initialize ny nx x yf)) x yf 0 0 0 1) < 0.
Proof.
  exists 1%nat, 1%nat, (even 0 (- (1)) (- (1))), (even 0 1 (- (1))).
  assert (X : even 0 (- (1)) (- (1)) 0 1 - even 0 (- (1)) (- (1)) 0 0 = - (1)) by (unfold even; cbn; ring). assert (Y : even 0 1 (- (1)) 0 1 - even 0 1 (- (1)) 0 0 = 1) by (unfold even; cbn; ring).
  assert (X' : even 0 (- (1)) (- (1)) 1 0 - even 0 (- (1)) (- (1)) 0 0 = - (1)) by (unfold even; cbn; ring). assert (Y' : even 0 1 (- (1)) 1 0 - even 0 1 (- (1)) 0 0 = - (1)) by (unfold even; cbn; ring).
  split.
  - unfold ascending, step, turned. cbn [fst snd]. rewrite X, Y, X', Y'.
    assert (S : 0 < sin (135 / 180 * PI)) by (apply sin_gt_0; pose proof PI_RGT_0; lra). assert (C : cos (135 / 180 * PI) < 0) by (apply cos_lt_0; pose proof PI_RGT_0; lra). lra.
  - rewrite angle_alpha, angle_heading, y_two by lia. unfold step. rewrite X, Y, heading_aligned by lra. destruct (Rlt_dec (- (1)) 0); [|lra]. destruct (Rle_dec 1 0); [lra|]. cbn [fst].
    pose proof (Wind_Proofs.hypot_pos (- (1)) 1 ltac:(lra)). lra.
Qed.

(** ** C97: the warning *)
Lemma c97_unrotated ny nx x yf : (0 < ny)%nat -> (x 0%nat 0%nat < x 0%nat 1%nat) -> yf 0%nat 1%nat = yf 0%nat 0%nat ->
  (warned (initialize ny nx x yf) = false <-> ascending (alpha (initialize ny nx x yf)) x yf).
Proof.
  intros N H E. assert (A : alpha (initialize ny nx x yf) = 0).
  { rewrite angle_alpha. unfold angle. rewrite y_two by auto. rewrite E. cbv zeta. destruct (Req_EM_T _ 0); [lra|]. destruct (Rle_dec _ 0); [lra|].
    replace ((yf 0%nat 0%nat - yf 0%nat 0%nat) / (x 0%nat 1%nat - x 0%nat 0%nat)) with 0 by (field; lra). rewrite atan_0. field. apply PI_neq0. }
  rewrite A. unfold initialize. cbn [warned]. destruct (Nat.eqb_spec ny 0); [lia|]. rewrite y_two by auto. unfold ascending, step, turned. cbn [fst snd].
  replace (0 / 180 * PI) with 0 by field. rewrite cos_0, sin_0. destruct (Rle_dec (x 0%nat 1%nat - x 0%nat 0%nat) 0); [lra|]. destruct (Rle_dec (yf 1%nat 0%nat - yf 0%nat 0%nat) 0); split; intros; auto; try discriminate; lra.
Qed.
Lemma c97_case : even 0 1 0 0 0 < even 0 1 0 0 1 /\ even 0 0 1 0 1 = even 0 0 1 0 0.
Proof. unfold even. cbn. split; [lra|ring]. Qed.
(** A proper grid, turned by 90 degrees, is warned about. *)
Lemma c97_spurious : exists ny nx x yf, ascending (alpha (initialize ny nx x yf)) x yf /\ warned (initialize ny nx x yf) = true.
Proof.
  exists 1%nat, 1%nat, (even 0 0 (- (1))), (even 0 1 0).
  assert (X : even 0 0 (- (1)) 0 1 - even 0 0 (- (1)) 0 0 = 0) by (unfold even; cbn; ring). assert (Y : even 0 1 0 0 1 - even 0 1 0 0 0 = 1) by (unfold even; cbn; ring).
  assert (X' : even 0 0 (- (1)) 1 0 - even 0 0 (- (1)) 0 0 = - (1)) by (unfold even; cbn; ring). assert (Y' : even 0 1 0 1 0 - even 0 1 0 0 0 = 0) by (unfold even; cbn; ring).
  split.
  - rewrite angle_alpha. unfold angle. rewrite y_two by lia. rewrite X, Y. cbv zeta. destruct (Req_EM_T 0 0); [|lra]. destruct (Rle_dec 0 0); [|lra]. destruct (Rle_dec 1 0); [lra|].
    unfold ascending, step, turned. rewrite X, Y, X', Y'. cbn [fst snd]. replace (90 / 180 * PI) with (PI / 2) by field. rewrite sin_PI2, cos_PI2. lra.
  - unfold initialize. cbn [warned Nat.eqb]. rewrite X. destruct (Rle_dec 0 0); [auto|lra].
Qed.
(** A grid with descending rows is not. *)
Lemma c97_missed : exists ny nx x yf, snd (step (alpha (initialize ny nx x yf)) x yf 0 0 1 0) < 0 /\ warned (initialize ny nx x yf) = false.
Proof.
  exists 1%nat, 1%nat, (even 0 1 2), (even 0 1 1).
  assert (X : even 0 1 2 0 1 - even 0 1 2 0 0 = 1) by (unfold even; cbn; ring). assert (Y : even 0 1 1 0 1 - even 0 1 1 0 0 = 1) by (unfold even; cbn; ring).
  assert (X' : even 0 1 2 1 0 - even 0 1 2 0 0 = 2) by (unfold even; cbn; ring). assert (Y' : even 0 1 1 1 0 - even 0 1 1 0 0 = 1) by (unfold even; cbn; ring).
  split.
  - rewrite angle_alpha. unfold angle. rewrite y_two by lia. rewrite X, Y. cbv zeta. destruct (Req_EM_T 1 0); [lra|]. destruct (Rle_dec 1 0); [lra|].
    unfold step, turned. rewrite X', Y'. cbn [fst snd]. rewrite rad_deg. replace (1 / 1) with 1 by field. rewrite atan_1, cos_PI4, sin_PI4. assert (0 < 1 / sqrt 2) by (apply Rdiv_lt_0_compat; [lra|apply sqrt_lt_R0; lra]). lra.
  - unfold initialize. cbn [warned Nat.eqb]. rewrite y_two by lia. rewrite X, Y'. destruct (Rle_dec 1 0); [lra|]. auto.
Qed.

(** ** C98: cell sizes *)
Lemma even_col x0 a b i j : even x0 a b i (S j) - even x0 a b i j = a.
Proof. unfold even. rewrite S_INR. ring. Qed.
Lemma even_row x0 a b i j : even x0 a b (S i) j - even x0 a b i j = b.
Proof. unfold even. rewrite S_INR. ring. Qed.
Lemma c98_even ny nx x0 y0 ax ay bx by_ i j : (0 < ny)%nat -> let s := initialize ny nx (even x0 ax bx) (even y0 ay by_) in
  ds s i j = distance bx by_ /\ dn s i j = distance ax ay /\ (ax * bx + ay * by_ = 0 -> dsdn s i j = Rabs (ax * by_ - ay * bx)) /\ (dsdn s i j <> 0 -> dsdni s i j * dsdn s i j = 1).
Proof.
  intros N. cbv zeta. pose proof (ds_two ny nx (even x0 ax bx) (even y0 ay by_) i j N) as S. pose proof (dn_two ny nx (even x0 ax bx) (even y0 ay by_) i j N) as D. rewrite !even_row in S. rewrite !even_col in D.
  split; [exact S|]. split; [exact D|].
  assert (A : dsdn (initialize ny nx (even x0 ax bx) (even y0 ay by_)) i j = Wind_Model.hypot bx by_ * Wind_Model.hypot ax ay) by (rewrite <- S, <- D; reflexivity).
  split; [intros O; rewrite A; apply area_rectangle; auto|]. intros NZ.
  change (dsdni (initialize ny nx (even x0 ax bx) (even y0 ay by_)) i j) with (1 / dsdn (initialize ny nx (even x0 ax bx) (even y0 ay by_)) i j). field. auto.
Qed.
Lemma c98_square ny nx x0 y0 ax ay bx by_ i j : (0 < ny)%nat -> distance ax ay = distance bx by_ -> let s := initialize ny nx (even x0 ax bx) (even y0 ay by_) in ds s i j = distance ax ay /\ dn s i j = distance bx by_.
Proof. intros N E. cbv zeta. destruct (c98_even ny nx x0 y0 ax ay bx by_ i j N) as [A [B _]]. rewrite A, B. auto. Qed.
Lemma dist_x a : 0 <= a -> distance a 0 = a.
Proof. intros. unfold distance. replace (a * a + 0 * 0) with (a * a) by ring. apply sqrt_square; auto. Qed.
Lemma dist_y a : 0 <= a -> distance 0 a = a.
Proof. intros. unfold distance. replace (0 * 0 + a * a) with (a * a) by ring. apply sqrt_square; auto. Qed.
Lemma c98_case : let s := initialize 1 1 (even 0 2 0) (even 0 0 3) in ds s 0%nat 0%nat = 3 /\ dn s 0%nat 0%nat = 2 /\ dsdn s 0%nat 0%nat = 6.
Proof.
  cbv zeta. destruct (c98_even 1 1 0 0 2 0 0 3 0 0 ltac:(lia)) as [A [B [C _]]]. rewrite A, B, C by ring. rewrite dist_x, dist_y by lra. split; [auto|]. split; [auto|]. replace (2 * 3 - 0 * 0) with 6 by ring. apply Rabs_right. lra.
Qed.
Lemma c98_square_case : let s := initialize 1 1 (even 0 2 0) (even 0 0 2) in distance 2 0 = distance 0 2 /\ ds s 0%nat 0%nat = 2.
Proof. cbv zeta. rewrite dist_x, dist_y by lra. split; auto. destruct (c98_even 1 1 0 0 2 0 0 2 0 0 ltac:(lia)) as [A _]. rewrite A. apply dist_y. lra. Qed.
(** ds, the size along the columns, is taken from the rows. *)
Lemma c98_swapped : exists ny nx ax by_, 0 < ax /\ 0 < by_ /\ let s := initialize ny nx (even 0 ax 0) (even 0 0 by_) in forall i j, ds s i j = by_ /\ dn s i j = ax /\ ax <> by_.
Proof.
  exists 1%nat, 1%nat, 2, 3. split; [lra|]. split; [lra|]. cbv zeta. intros i j. destruct (c98_even 1 1 0 0 2 0 0 3 i j ltac:(lia)) as [A [B _]]. rewrite A, B, dist_x, dist_y by lra. repeat split; auto. lra.
Qed.
(** With cells of different sizes in two dimensions, all get the size of the first. *)
Lemma c98_uneven ny nx x yf i j i' j' : (0 < ny)%nat -> let s := initialize ny nx x yf in ds s i j = ds s i' j' /\ dn s i j = dn s i' j' /\ dsdn s i j = dsdn s i' j'.
Proof. intros N. cbv zeta. unfold initialize. cbn [ds dn dsdn]. destruct (Nat.eqb_spec ny 0); [lia|]. auto. Qed.
Lemma c98_uneven_refuted : exists ny nx x yf, (0 < ny)%nat /\ (forall i j, yf i j = INR i) /\ (forall i i' j, x i j = x i' j) /\ x 0%nat 1%nat - x 0%nat 0%nat = 1 /\ x 0%nat 2%nat - x 0%nat 1%nat = 3 /\
  forall i j, dsdn (initialize ny nx x yf) i j = 1.
Proof.
  exists 1%nat, 2%nat, (fun _ j => INR (j * j)), (fun i _ => INR i). split; [lia|]. split; auto. split; auto. split; [cbn; lra|]. split; [cbn; lra|]. intros i j.
  change (dsdn (initialize 1 2 (fun _ j => INR (j * j)) (fun i _ => INR i)) i j) with (ds (initialize 1 2 (fun _ j => INR (j * j)) (fun i _ => INR i)) i j * dn (initialize 1 2 (fun _ j => INR (j * j)) (fun i _ => INR i)) i j).
  rewrite ds_two, dn_two by lia. cbn. replace (0 - 0) with 0 by ring. replace (1 - 0) with 1 by ring. fold (distance 0 1). fold (distance 1 0). pose proof (dist_x 1 ltac:(lra)). pose proof (dist_y 1 ltac:(lra)). unfold distance in *. unfold Wind_Model.hypot. rewrite H, H0. ring.
Qed.
Lemma c98_one nx x yf i j : let s := initialize 0 nx x yf in dn s i j = 1 /\ ds s i (S j) = x i (S j) - x i j /\ ds s i 0%nat = ds s i 1%nat /\ dsdn s i j = ds s i j /\
  total (fun k => ds s i (S k)) j = x i j - x i 0%nat.
Proof.
  cbv zeta. unfold initialize. cbn [ds dn dsdn Nat.eqb]. split; auto. split; auto. split; auto. split; [ring|]. induction j as [|j IH]; cbn [total]; [ring|]. rewrite IH. ring.
Qed.
Lemma c98_one_case : let s := initialize 0 2 (fun _ j => INR (j * j)) (fun _ _ => 0) in ds s 0%nat 0%nat = 1 /\ ds s 0%nat 1%nat = 1 /\ ds s 0%nat 2%nat = 3.
Proof. cbv zeta. unfold initialize. cbn. repeat split; lra. Qed.
