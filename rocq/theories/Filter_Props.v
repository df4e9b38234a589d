(** The filters of the separation surface: properties C148 to C151. *)
From Verif Require Import Base Shear_Model Shear_Spec Filter_Model Filter_Spec Filter_Proofs Filter_Smooth Filter_Cases.
From Coq Require Import Reals List.
Import ListNotations.
Open Scope R_scope.

(** C148. With any setting of the filters the separation surface is nowhere below the bed. *)
Theorem C148_above : forall m n dx c mu xmax z it yf s, separation_surface m n dx c mu xmax z it yf = Ok s -> forall r l, z r l <= s r l.
Proof. exact c148_above. Qed.
Print Assumptions C148_above.
Example C148_above_case : exists s, separation_surface 50 60 1 (2 / 10) 30 60 cliffs 3 false = Ok s /\ forall r, (r < 50)%nat -> s r 24%nat = 2 /\ cliffs r 24%nat = 0.
Proof. exact c148_case. Qed.

(** Where no slope is too steep for the wind, the surface is the bed, with any setting of the filters. *)
Theorem C148_gentle : forall m n dx c mu xmax z it yf, (3 <= n)%nat -> (forall r, (r < m)%nat -> gentle n dx mu (z r)) ->
  exists s, separation_surface m n dx c mu xmax z it yf = Ok s /\ forall r l, 0 <= z r l -> s r l = z r l.
Proof. exact c148_gentle. Qed.
Print Assumptions C148_gentle.
Example C148_gentle_case : (forall r, (r < 5)%nat -> gentle 10 1 30 ((fun _ _ => 2) r)) /\ exists s, separation_surface 5 10 1 (2 / 10) 30 60 (fun _ _ => 2) 3 true = Ok s /\ s 1%nat 1%nat = 2.
Proof. exact c148_gentle_case. Qed.

(** Without filters every row has its own surface, that of C116. *)
Theorem C148_off : forall m n dx c mu xmax z, exists s, separation_surface m n dx c mu xmax z 0 false = Ok s /\ forall r l, (r < m)%nat -> s r l = separation n dx c mu (z r) l.
Proof. exact c148_off. Qed.
Print Assumptions C148_off.
Example C148_off_case : exists s, separation_surface 50 60 1 (2 / 10) 30 60 cliffs 0 false = Ok s /\ forall r, (r < 50)%nat -> s r 24%nat = 2 /\ cliffs r 24%nat = 0.
Proof. exact c148_off_case. Qed.

(** C149. The iterations remove high frequencies: a level surface stays, the shortest wave gets lower. False, for all numbers of the bubble. *)
Theorem C149_low_pass_refuted : exists n dx xmax k, (0 < n)%nat /\ 0 < dx /\ 0 < xmax /\ ~ low_pass n (filtered n dx xmax k).
Proof. exact c149_low_pass. Qed.
Print Assumptions C149_low_pass_refuted.

(** It is not a matter of the parameters. *)
Theorem C149_never_partial : forall n dx xmax k, (0 < n)%nat -> 0 < dx -> 0 < xmax -> ~ low_pass n (filtered n dx xmax k).
Proof. exact c149_never. Qed.
Print Assumptions C149_never_partial.
Example C149_never_partial_case : filtered 60 1 60 0 zigzag 7%nat = - 1 /\ filtered 60 1 60 5 (fun _ => 3) 7%nat < 3.
Proof. exact c149_case. Qed.

(** What is done instead: all wave lengths are reduced by the same factor, that depends on the number of the bubble; nothing for the first one. *)
Theorem C149_scaled_partial : forall n dx xmax k v l, (l < n)%nat -> filtered n dx xmax k v l = damping dx xmax k * v l.
Proof. exact filtered_scaled. Qed.
Print Assumptions C149_scaled_partial.
Example C149_scaled_partial_case : filtered 60 1 60 0 zigzag 7%nat = - 1 /\ filtered 60 1 60 5 (fun _ => 3) 7%nat < 3.
Proof. exact c149_case. Qed.

(** The iterations never lower the surface, on any bed. *)
Theorem C149_higher_partial : forall m n dx c mu xmax z it yf s s0, separation_surface m n dx c mu xmax z it yf = Ok s -> separation_surface m n dx c mu xmax z 0 yf = Ok s0 -> forall r l, s0 r l <= s r l.
Proof. exact surface_higher. Qed.
Print Assumptions C149_higher_partial.
Example C149_higher_partial_case : exists s, separation_surface 50 60 1 (2 / 10) 30 60 cliffs 3 false = Ok s /\ forall r, (r < 50)%nat -> s r 24%nat = 2 /\ cliffs r 24%nat = 0.
Proof. exact c148_case. Qed.

(** Behind cliffs they have no effect at all. *)
Theorem C149_cliff_partial : forall m n b dx c mu h xmax it, (4 <= b)%nat -> (b + 4 < n)%nat -> 0 < dx -> 0 < c -> 0 < h -> mu < degrees (atan (h / (2 * dx))) -> (m <= n)%nat ->
  exists s s0, separation_surface m n dx c mu xmax (fun _ => cliff b h) it false = Ok s /\ separation_surface m n dx c mu xmax (fun _ => cliff b h) 0 false = Ok s0 /\ forall r l, (r < m)%nat -> s r l = s0 r l.
Proof. exact surface_cliff. Qed.
Print Assumptions C149_cliff_partial.
Example C149_cliff_partial_case : exists s, separation_surface 50 60 1 (2 / 10) 30 60 cliffs 3 false = Ok s /\ forall r, (r < 50)%nat -> s r 24%nat = 2 /\ cliffs r 24%nat = 0.
Proof. exact c148_case. Qed.

(** C150. Smoothing across the wind stays within the range of a column. *)
Theorem C150_range : forall m v l lo hi r, column_between m v l lo hi -> (r < m)%nat -> lo <= smooth m v r l <= hi.
Proof. exact smooth_range. Qed.
Print Assumptions C150_range.
Example C150_range_case : column_between 3 (fun r _ => if Nat.eqb r 1%nat then 5 else 1) 0%nat 1 5 /\ volume 3 (fun r _ => if Nat.eqb r 1%nat then 5 else 1) 0%nat = 7 /\
  smooth 3 (fun r _ => if Nat.eqb r 1%nat then 5 else 1) 1%nat 0%nat < 5.
Proof. exact c150_case. Qed.

(** It keeps the volume under the surface in every column. *)
Theorem C150_volume : forall m v l, volume m (smooth m v) l = volume m v l.
Proof. exact smooth_volume. Qed.
Print Assumptions C150_volume.
Example C150_volume_case : column_between 3 (fun r _ => if Nat.eqb r 1%nat then 5 else 1) 0%nat 1 5 /\ volume 3 (fun r _ => if Nat.eqb r 1%nat then 5 else 1) 0%nat = 7 /\
  smooth 3 (fun r _ => if Nat.eqb r 1%nat then 5 else 1) 1%nat 0%nat < 5.
Proof. exact c150_case. Qed.

(** A column that is level stays so. *)
Theorem C150_level : forall m v l h r, column_between m v l h h -> (r < m)%nat -> smooth m v r l = h.
Proof. exact smooth_level. Qed.
Print Assumptions C150_level.
Example C150_level_case : column_between 3 (fun _ l => INR l) 4%nat (INR 4) (INR 4) /\ smooth 3 (fun _ l => INR l) 2%nat 4%nat = INR 4.
Proof. exact c150_level_case. Qed.

(** No value changes by more than a 50000th of the range of its column. *)
Theorem C150_tiny : forall m v l lo hi r, column_between m v l lo hi -> (r < m)%nat -> Rabs (smooth m v r l - v r l) <= (hi - lo) / 50000.
Proof. exact smooth_tiny. Qed.
Print Assumptions C150_tiny.
Example C150_tiny_case : column_between 3 (fun r _ => if Nat.eqb r 1%nat then 5 else 1) 0%nat 1 5 /\ volume 3 (fun r _ => if Nat.eqb r 1%nat then 5 else 1) 0%nat = 7 /\
  smooth 3 (fun r _ => if Nat.eqb r 1%nat then 5 else 1) 1%nat 0%nat < 5.
Proof. exact c150_case. Qed.

(** So the surface hardly changes: by no more than a 50000th of its height in the column. *)
Theorem C150_surface : forall m n dx c mu xmax z it s s1 l hi, separation_surface m n dx c mu xmax z it false = Ok s -> separation_surface m n dx c mu xmax z it true = Ok s1 ->
  (forall r, (r < m)%nat -> s r l <= hi) -> forall r, (r < m)%nat -> Rabs (s1 r l - s r l) <= hi / 50000.
Proof. exact surface_tiny. Qed.
Print Assumptions C150_surface.
Example C150_surface_case : exists s, separation_surface 50 60 1 (2 / 10) 30 60 cliffs 3 false = Ok s /\ forall r, (r < 50)%nat -> s r 24%nat = 2 /\ cliffs r 24%nat = 0.
Proof. exact c148_case. Qed.

(** C151. Filtering works on every grid: false, when there are more rows than columns. *)
Theorem C151_rows_refuted : exists m n dx c mu xmax z, 0 < dx /\ 0 < c /\ 0 < xmax /\ Shear_Spec.between m n z 0 4 /\ separation_surface m n dx c mu xmax z 1 false = Raise IndexError /\
  exists s, separation_surface m n dx c mu xmax z 0 false = Ok s.
Proof. exact c151_rows. Qed.
Print Assumptions C151_rows_refuted.

(** It works with as many columns as rows or more. *)
Theorem C151_ok_partial : forall m n dx c mu xmax z it yf, (m <= n)%nat -> exists s, separation_surface m n dx c mu xmax z it yf = Ok s.
Proof. exact c151_ok. Qed.
Print Assumptions C151_ok_partial.
Example C151_ok_partial_case : exists s, separation_surface 50 60 1 (2 / 10) 30 60 cliffs 3 false = Ok s /\ forall r, (r < 50)%nat -> s r 24%nat = 2 /\ cliffs r 24%nat = 0.
Proof. exact c148_case. Qed.

(** Otherwise a bubble in one of the last rows raises an exception. *)
Theorem C151_raises_partial : forall m n dx c mu xmax z it yf r i, (0 < it)%nat -> (n <= r < m)%nat -> In i (bubbles n dx mu (z r)) -> separation_surface m n dx c mu xmax z it yf = Raise IndexError.
Proof. exact c151_raises. Qed.
Print Assumptions C151_raises_partial.
Example C151_raises_partial_case : (60 <= 60 < 70)%nat /\ In 9%nat (bubbles 60 1 30 (cliffs 60%nat)).
Proof. exact c151_case. Qed.
