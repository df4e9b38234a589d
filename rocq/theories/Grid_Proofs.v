(** Lemmas about the grid. *)
From Coq Require Import Reals.
From Verif Require Import Base Num Time_Model Rotate_Model Rotate_Spec Rotate_Proofs Grid_Model Grid_Spec.
From Verif Require Wind_Proofs.
From Coq Require Import Lra Lia.
Open Scope R_scope.

Lemma angle_alpha ny nx x yf : alpha (initialize ny nx x yf) = angle ny x yf.
Proof. reflexivity. Qed.
(** Turning by the angle of the first step puts that step along the first axis, unless it points to the upper left. *)
Definition heading (dx dy : R) : R :=
  let a := if Req_EM_T dx 0 then 90 else atan (dy / dx) * 180 / PI in if Rle_dec dx 0 then (if Rle_dec dy 0 then a + 180 else a) else a.
Lemma rad_deg a : a * 180 / PI / 180 * PI = a.
Proof. field. apply PI_neq0. Qed.
Lemma heading_right dx dy : 0 < dx -> turned (heading dx dy) dx dy = (hypot dx dy, 0).
Proof.
  intros P. unfold turned, heading. cbv zeta. destruct (Req_EM_T dx 0); [lra|]. destruct (Rle_dec dx 0); [lra|]. rewrite rad_deg.
  destruct (Wind_Proofs.polar_pos dy dx P) as [S C]. set (h := hypot dx dy) in *. assert (H : 0 < h) by (apply Wind_Proofs.hypot_pos; lra).
  assert (Q : h * h = dx * dx + dy * dy) by apply Wind_Proofs.hypot_sq. set (s := sin _) in *. set (c := cos _) in *. clearbody s c h. f_equal.
  - apply Rmult_eq_reg_l with h; [|lra]. replace (h * (dx * c + dy * s)) with (dx * (h * c) + dy * (h * s)) by ring. rewrite S, C. lra.
  - apply Rmult_eq_reg_l with h; [|lra]. replace (h * (dy * c - dx * s)) with (dy * (h * c) - dx * (h * s)) by ring. rewrite S, C. ring.
Qed.
Lemma turned_half a dx dy : turned (a + 180) dx dy = (- fst (turned a dx dy), - snd (turned a dx dy)).
Proof.
  unfold turned. replace ((a + 180) / 180 * PI) with (a / 180 * PI + PI) by field. rewrite neg_cos, neg_sin. cbn [fst snd]. f_equal; ring.
Qed.
Lemma turned_opp a dx dy : turned a (- dx) (- dy) = (- fst (turned a dx dy), - snd (turned a dx dy)).
Proof. unfold turned. cbn [fst snd]. f_equal; ring. Qed.
Lemma heading_left dx dy : dx < 0 -> turned (heading dx dy) dx dy = (if Rle_dec dy 0 then hypot dx dy else - hypot dx dy, 0).
Proof.
  intros P. pose proof (heading_right (- dx) (- dy) ltac:(lra)) as E. rewrite Wind_Proofs.hypot_opp, turned_opp in E.
  assert (A : heading (- dx) (- dy) = atan (dy / dx) * 180 / PI).
  { unfold heading. cbv zeta. destruct (Req_EM_T (- dx) 0); [lra|]. destruct (Rle_dec (- dx) 0); [lra|]. replace (- dy / - dx) with (dy / dx) by (field; lra). auto. }
  rewrite A in E. assert (E1 := f_equal fst E). assert (E2 := f_equal snd E). cbn [fst snd] in E1, E2. unfold heading. cbv zeta. destruct (Req_EM_T dx 0); [lra|]. destruct (Rle_dec dx 0); [|lra].
  destruct (Rle_dec dy 0); [rewrite turned_half; f_equal; lra|]. rewrite (surjective_pairing (turned (atan (dy / dx) * 180 / PI) dx dy)). f_equal; lra.
Qed.
Lemma heading_up dy : dy <> 0 -> turned (heading 0 dy) 0 dy = (hypot 0 dy, 0).
Proof.
  intros N. assert (H : turned 90 0 dy = (dy, 0)). { unfold turned. replace (90 / 180 * PI) with (PI / 2) by field. rewrite sin_PI2, cos_PI2. f_equal; ring. }
  assert (HY : hypot 0 dy = Rabs dy). { unfold Wind_Model.hypot. replace (0 * 0 + dy * dy) with (Rsqr dy) by (unfold Rsqr; ring). apply sqrt_Rsqr_abs. }
  unfold heading. cbv zeta. destruct (Req_EM_T 0 0); [|contradiction]. destruct (Rle_dec 0 0); [|lra]. rewrite HY. destruct (Rle_dec dy 0).
  - rewrite turned_half, H. cbn [fst snd]. rewrite Rabs_left by lra. f_equal; ring.
  - rewrite H, Rabs_right by lra. auto.
Qed.
Lemma heading_aligned dx dy : (dx <> 0 \/ dy <> 0) -> turned (heading dx dy) dx dy = (if Rlt_dec dx 0 then (if Rle_dec dy 0 then hypot dx dy else - hypot dx dy) else hypot dx dy, 0).
Proof.
  intros N. destruct (Rlt_dec dx 0); [apply heading_left; auto|]. destruct (Req_EM_T dx 0) as [->|]; [apply heading_up; lra|apply heading_right; lra].
Qed.
Lemma rotated_step ny nx x yf i j i' j' : (fst (rotated ny nx x yf i j) - fst (rotated ny nx x yf i' j'), snd (rotated ny nx x yf i j) - snd (rotated ny nx x yf i' j')) =
  turned (angle ny x yf) (x i j - x i' j') (y ny yf i j - y ny yf i' j').
Proof. unfold rotated, rotate1, turned. cbn [fst snd]. unfold radians. f_equal; ring. Qed.
Lemma turned_length a dx dy : hypot (fst (turned a dx dy)) (snd (turned a dx dy)) = hypot dx dy.
Proof.
  unfold turned, Wind_Model.hypot. cbn [fst snd]. f_equal. set (t := a / 180 * PI). pose proof (trig1 t).
  replace ((dx * cos t + dy * sin t) * (dx * cos t + dy * sin t) + (dy * cos t - dx * sin t) * (dy * cos t - dx * sin t)) with ((dx * dx + dy * dy) * (cos t * cos t + sin t * sin t)) by ring. rewrite H. ring.
Qed.
Lemma span_length ny nx x yf i j i' j' : span ny nx x yf i j i' j' = hypot (x i j - x i' j') (y ny yf i j - y ny yf i' j').
Proof.
  unfold span. pose proof (rotated_step ny nx x yf i j i' j') as E. rewrite <- (turned_length (angle ny x yf) (x i j - x i' j') (y ny yf i j - y ny yf i' j')). rewrite <- E. reflexivity.
Qed.
Lemma ds_two ny nx x yf i j : (0 < ny)%nat -> ds (initialize ny nx x yf) i j = hypot (x 1%nat 0%nat - x 0%nat 0%nat) (yf 1%nat 0%nat - yf 0%nat 0%nat).
Proof. intros N. unfold initialize. cbn [ds]. destruct (Nat.eqb_spec ny 0); [lia|]. rewrite span_length. unfold y. destruct (Nat.eqb_spec ny 0); [lia|]. auto. Qed.
Lemma dn_two ny nx x yf i j : (0 < ny)%nat -> dn (initialize ny nx x yf) i j = hypot (x 0%nat 1%nat - x 0%nat 0%nat) (yf 0%nat 1%nat - yf 0%nat 0%nat).
Proof. intros N. unfold initialize. cbn [dn]. destruct (Nat.eqb_spec ny 0); [lia|]. rewrite span_length. unfold y. destruct (Nat.eqb_spec ny 0); [lia|]. auto. Qed.
Lemma area_rectangle ax ay bx by_ : ax * bx + ay * by_ = 0 -> hypot bx by_ * hypot ax ay = Rabs (ax * by_ - ay * bx).
Proof.
  intros O. unfold Wind_Model.hypot. assert (SQ : forall u v, 0 <= u * u + v * v) by (intros u v; pose proof (Rle_0_sqr u); pose proof (Rle_0_sqr v); unfold Rsqr in *; lra).
  rewrite <- sqrt_mult by apply SQ. rewrite <- sqrt_Rsqr_abs. f_equal. unfold Rsqr.
  replace ((bx * bx + by_ * by_) * (ax * ax + ay * ay)) with ((ax * by_ - ay * bx) * (ax * by_ - ay * bx) + (ax * bx + ay * by_) * (ax * bx + ay * by_)) by ring. rewrite O. ring.
Qed.
