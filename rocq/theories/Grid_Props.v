(** Properties C96-C98: orientation and cell sizes of the grid. *)
From Coq Require Import Reals.
From Verif Require Import Base Grid_Model Grid_Spec Grid_Proofs Grid_Cases.
Open Scope R_scope.

(** Turned over the computed orientation, the first row runs along the positive first axis, unless it runs to the upper left. *)
Theorem C96_aligned : forall ny nx x yf, (0 < ny)%nat -> let dx := x 0%nat 1%nat - x 0%nat 0%nat in let dy := yf 0%nat 1%nat - yf 0%nat 0%nat in
  dx <> 0 \/ dy <> 0 -> ~ (dx < 0 /\ 0 < dy) -> step (alpha (initialize ny nx x yf)) x yf 0 0 0 1 = (distance dx dy, 0).
Proof. exact c96_aligned. Qed.
Print Assumptions C96_aligned.
Example C96_aligned_case : let x := even 0 1 0 in let yf := even 0 1 1 in
  x 0%nat 1%nat - x 0%nat 0%nat = 1 /\ yf 0%nat 1%nat - yf 0%nat 0%nat = 1 /\ alpha (initialize 1 2 x yf) = 45.
Proof. exact c96_case. Qed.

(** A single ascending row has orientation zero. *)
Theorem C96_row : forall nx x yf, x 0%nat 0%nat < x 0%nat 1%nat -> alpha (initialize 0 nx x yf) = 0.
Proof. exact c96_row. Qed.
Print Assumptions C96_row.
Example C96_row_case : even 0 1 0 0 0 < even 0 1 0 0 1.
Proof. exact c96_row_case. Qed.

(** A grid at 135 degrees is turned the wrong way. *)
Theorem C96_upper_left_refuted : exists ny nx x yf, ascending 135 x yf /\ fst (step (alpha (initialize ny nx x yf)) x yf 0 0 0 1) < 0.
Proof. exact c96_upper_left. Qed.
Print Assumptions C96_upper_left_refuted.

(** For grids along the axes there is a warning if and only if rows descend. *)
Theorem C97_unrotated : forall ny nx x yf, (0 < ny)%nat -> (x 0%nat 0%nat < x 0%nat 1%nat) -> yf 0%nat 1%nat = yf 0%nat 0%nat ->
  (warned (initialize ny nx x yf) = false <-> ascending (alpha (initialize ny nx x yf)) x yf).
Proof. exact c97_unrotated. Qed.
Print Assumptions C97_unrotated.
Example C97_unrotated_case : even 0 1 0 0 0 < even 0 1 0 0 1 /\ even 0 0 1 0 1 = even 0 0 1 0 0.
Proof. exact c97_case. Qed.

(** A proper grid is warned about. *)
Theorem C97_spurious_refuted : exists ny nx x yf, ascending (alpha (initialize ny nx x yf)) x yf /\ warned (initialize ny nx x yf) = true.
Proof. exact c97_spurious. Qed.
Print Assumptions C97_spurious_refuted.

(** One with descending rows is not. *)
Theorem C97_missed_refuted : exists ny nx x yf, snd (step (alpha (initialize ny nx x yf)) x yf 0 0 1 0) < 0 /\ warned (initialize ny nx x yf) = false.
Proof. exact c97_missed. Qed.
Print Assumptions C97_missed_refuted.

(** In two dimensions ds is the distance of the rows and dn that of the columns; areas of rectangles are right. *)
Theorem C98_even : forall ny nx x0 y0 ax ay bx by_ i j, (0 < ny)%nat -> let s := initialize ny nx (even x0 ax bx) (even y0 ay by_) in
  ds s i j = distance bx by_ /\ dn s i j = distance ax ay /\ (ax * bx + ay * by_ = 0 -> dsdn s i j = Rabs (ax * by_ - ay * bx)) /\ (dsdn s i j <> 0 -> dsdni s i j * dsdn s i j = 1).
Proof. exact c98_even. Qed.
Print Assumptions C98_even.
Example C98_even_case : let s := initialize 1 1 (even 0 2 0) (even 0 0 3) in ds s 0%nat 0%nat = 3 /\ dn s 0%nat 0%nat = 2 /\ dsdn s 0%nat 0%nat = 6.
Proof. exact c98_case. Qed.

(** For equal distances the sizes are right. *)
Theorem C98_square : forall ny nx x0 y0 ax ay bx by_ i j, (0 < ny)%nat -> distance ax ay = distance bx by_ -> let s := initialize ny nx (even x0 ax bx) (even y0 ay by_) in ds s i j = distance ax ay /\ dn s i j = distance bx by_.
Proof. exact c98_square. Qed.
Print Assumptions C98_square.
Example C98_square_case : let s := initialize 1 1 (even 0 2 0) (even 0 0 2) in distance 2 0 = distance 0 2 /\ ds s 0%nat 0%nat = 2.
Proof. exact c98_square_case. Qed.

(** Otherwise ds and dn are swapped. *)
Theorem C98_swapped_refuted : exists ny nx ax by_, 0 < ax /\ 0 < by_ /\ let s := initialize ny nx (even 0 ax 0) (even 0 0 by_) in forall i j, ds s i j = by_ /\ dn s i j = ax /\ ax <> by_.
Proof. exact c98_swapped. Qed.
Print Assumptions C98_swapped_refuted.

(** In two dimensions all cells have the same size. *)
Theorem C98_all_equal : forall ny nx x yf i j i' j', (0 < ny)%nat -> let s := initialize ny nx x yf in ds s i j = ds s i' j' /\ dn s i j = dn s i' j' /\ dsdn s i j = dsdn s i' j'.
Proof. exact c98_uneven. Qed.
Print Assumptions C98_all_equal.
Example C98_all_equal_case : let s := initialize 1 1 (even 0 2 0) (even 0 0 3) in ds s 0%nat 0%nat = 3 /\ dn s 0%nat 0%nat = 2 /\ dsdn s 0%nat 0%nat = 6.
Proof. exact c98_case. Qed.

(** Also if they differ. *)
Theorem C98_uneven_refuted : exists ny nx x yf, (0 < ny)%nat /\ (forall i j, yf i j = INR i) /\ (forall i i' j, x i j = x i' j) /\ x 0%nat 1%nat - x 0%nat 0%nat = 1 /\ x 0%nat 2%nat - x 0%nat 1%nat = 3 /\
  forall i j, dsdn (initialize ny nx x yf) i j = 1.
Proof. exact c98_uneven_refuted. Qed.
Print Assumptions C98_uneven_refuted.

(** In one dimension sizes are the distances of the columns and add up to the length of the row. *)
Theorem C98_one_dimension : forall nx x yf i j, let s := initialize 0 nx x yf in dn s i j = 1 /\ ds s i (S j) = x i (S j) - x i j /\ ds s i 0%nat = ds s i 1%nat /\ dsdn s i j = ds s i j /\
  total (fun k => ds s i (S k)) j = x i j - x i 0%nat.
Proof. exact c98_one. Qed.
Print Assumptions C98_one_dimension.
Example C98_one_dimension_case : let s := initialize 0 2 (fun _ j => INR (j * j)) (fun _ _ => 0) in ds s 0%nat 0%nat = 1 /\ ds s 0%nat 1%nat = 1 /\ ds s 0%nat 2%nat = 3.
Proof. exact c98_one_case. Qed.
