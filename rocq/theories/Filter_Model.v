(** Model of the separation surface with its filters: /repo/aeolis/shear.py:373-521 [separation] for a whole grid, with the parameters sep_filter_iterations and
    zsep_y_filter (constants.py:243-244). The parts without filters are those of Shear_Model.v, section Bubble. Simplifications: reals instead of floats, the wind blows along
    the rows (idir = 1, line 441), and the largest x-coordinate is not zero (line 479 divides by it). *)
From Verif Require Import Base Shear_Model.
From Coq Require Import Reals.
Open Scope R_scope.

(** numpy.fft.fft and the real part of numpy.fft.ifft of [n] values. *)
Definition fft (n : nat) (v : nat -> R) (b : nat) : complex := ctotal n (fun c => cmul (real (v c)) (cis (- (2 * PI * (INR b * INR c / INR n))))).
Definition ifft_real (n : nat) (s : nat -> complex) (c : nat) : R := fst (ctotal n (fun b => cmul (s b) (cis (2 * PI * (INR b * INR c / INR n))))) / INR n.

Section Surface.
(** A grid of [m] rows and [n] columns with the bed [z]; [xmax] is the largest x-coordinate. *)
Variables (m n : nat) (dx c mu xmax : R) (z : field) (iterations : nat) (yfilter : bool).
(** shear.py:428-430: row and column of the bubbles, row by row. *)
Definition places : list (nat * nat) := flat_map (fun j => map (fun i => (j, i)) (bubbles n dx mu (z j))) (seq 0 m).
(** shear.py:476-481: the name k, the wave numbers at line 397, is that of the loop over the bubbles at line 435. *)
Definition damping (k : nat) : R := exp (- (2 * PI / xmax * INR k * dx) ^ 2 / (2 * (15 / 10) ^ 2)).
Definition filtered (k : nat) (v : nat -> R) : nat -> R := ifft_real n (fun b => cmul (fft n v b) (real (damping k))).
(** shear.py:483-486: the height of the brink in the filtered surface; ix_neg is that of the bed. *)
Definition brink_of (j i : nat) (v : nat -> R) : R :=
  match filter (fun l => Shear_Model.leb 0 (dzx n dx (z j) l)) (seq (i + 5) (n - (i + 5))) with
  | [] => v i
  | l :: _ => v i - v l
  end.
(** Assignment to a row. *)
Definition set_row (f : field) (j : nat) (v : nat -> R) : field := fun r l => if Nat.eqb r j then v l else f r l.
(** shear.py:472 and 510 *)
Definition raise_row (j : nat) (zsep new : field) : field := set_row zsep j (fun l => Rmax (Rmax (z j l) (zsep j l)) (new j l)).
(** shear.py:474-510, one iteration for bubble number [k]: zsep_new and zsep. *)
Definition refine (k j i : nat) (s : field * field) : field * field :=
  let v := filtered k (snd s j) in
  let h := brink_of j i v in
  let d := (v i - back3 n v i) / (3 * dx) in
  let ls := reattach c h d in
  let last := Nat.min (i + Z.to_nat (Int_part (ls / dx))) (n - 1) in
  let new := set_row (fun _ _ => 0) j (fun l => if (Nat.leb i l && Nat.ltb l last)%bool then cubic h d ls h (INR l * dx - INR i * dx) else 0) in
  (new, raise_row j (snd s) new).
(** shear.py:435-510, bubble number [k]. zfft (line 402) has as many rows as columns, lines 383-384. *)
Definition one_bubble (k j i : nat) (s : field * field) : result (field * field) :=
  let '(row, _) := add_bubble n dx c (z j) (fst s j, snd s j) i in
  let new := set_row (fst s) j row in
  let s' := (new, raise_row j (snd s) new) in
  if (Nat.ltb 0 iterations && Nat.leb n j)%bool then Raise IndexError
  else Ok (Nat.iter iterations (refine k j i) s').
Fixpoint walk (k : nat) (l : list (nat * nat)) (s : field * field) : result (field * field) :=
  match l with
  | [] => Ok s
  | (j, i) :: l' => let* s' := one_bubble k j i s in walk (S k) l' s'
  end.
(** shear.py:514-515: scipy.ndimage.gaussian_filter1d with sigma = 0.2 along the columns; the kernel has int(4 * 0.2 + 0.5) = 1 value on each side, beyond the edge the
    values are reflected. *)
Definition side_weight : R := exp (- (1 / 2) / (2 / 10) ^ 2).
Definition smooth (v : field) : field := fun r l =>
  (v r l + side_weight * (v (r - 1)%nat l + v (Nat.min (S r) (m - 1)) l)) / (1 + 2 * side_weight).
(** shear.py:513-521 *)
Definition separation_surface : result field :=
  let* s := walk 0 places (fun _ _ => 0, fun _ _ => 0) in
  let zsep := if yfilter then smooth (snd s) else snd s in
  Ok (fun r l => if Rlt_dec (zsep r l) (z r l) then z r l else zsep r l).
End Surface.
