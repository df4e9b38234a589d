(** Model of the numerical helpers of aeolis/utils.py and of the fraction weights of
    aeolis/transport.py. Exact rational arithmetic. An array normalised along one axis is a list of
    lanes along that axis; a lane is a list of numbers. *)
From Verif Require Import Base Num.
Open Scope Q_scope.

(** numpy's elementwise binary operation on two lanes of the same length. *)
Fixpoint map2 {A B C} (f : A -> B -> C) (l : list A) (m : list B) : list C :=
  match l, m with
  | a :: l', b :: m' => f a b :: map2 f l' m'
  | _, _ => []
  end.

(** ** utils.py:144-170 [normalize] *)
(** utils.py:168-169: [fill] where the reference is zero. *)
Definition quotient (fill x ref : Q) : Q := if Qeq_bool ref 0 then fill else x / ref.
(** With an explicit reference array (utils.py:165 not taken). *)
Definition normalize_ref (fill : Q) (x ref : list Q) : list Q := map2 (quotient fill) x ref.
(** One lane, with the sum of the lane as reference (utils.py:166). *)
Definition normalize (fill : Q) (x : list Q) : list Q :=
  normalize_ref fill x (map (fun _ => qsum x) x).
(** A matrix, given by its rows, along its last axis and along its first. *)
Definition normalize_rows (fill : Q) (m : list (list Q)) : list (list Q) := map (normalize fill) m.
Definition add_rows (a b : list Q) : list Q := map2 Qplus a b.
Definition column_sums (width : nat) (m : list (list Q)) : list Q := fold_right add_rows (repeat 0 width) m.
Definition normalize_columns (fill : Q) (width : nat) (m : list (list Q)) : list (list Q) :=
  map (fun row => normalize_ref fill row (column_sums width m)) m.

(** ** utils.py:173-195 [prevent_tiny_negatives], one element *)
Definition no_tiny_negative (max_error replacement x : Q) : Q :=
  if Qltb x 0 && Qltb (- max_error) x then replacement else x.
Definition prevent_tiny_negatives (max_error replacement : Q) (l : list Q) : list Q :=
  map (no_tiny_negative max_error replacement) l.

(** ** Interpolation *)
(** numpy.interp with the points in increasing order: constant beyond the first and the last point,
    linear between neighbours. *)
Fixpoint interp_from (x x0 f0 : Q) (rest : list (Q * Q)) : Q :=
  match rest with
  | [] => f0
  | (x1, f1) :: rest' =>
      if Qltb x x1 then (if Qle_bool x x0 then f0 else f0 + (f1 - f0) / (x1 - x0) * (x - x0))
      else interp_from x x1 f1 rest'
  end.
Definition interp (x : Q) (first : Q * Q) (rest : list (Q * Q)) : Q := interp_from x (fst first) (snd first) rest.

(** numpy.mod for a positive divisor *)
Definition qmod (a b : Q) : Q := a - b * inject_Z (Qfloor (a / b)).

(** utils.py:104-141 [interp_circular], for a non-empty series (an empty one raises ValueError). *)
Definition xmin (first : Q * Q) (rest : list (Q * Q)) : Q := qminl (fst first) (map fst rest).
Definition xmax (first : Q * Q) (rest : list (Q * Q)) : Q := qmaxl (fst first) (map fst rest).
Definition interp_circular (x : Q) (first : Q * Q) (rest : list (Q * Q)) : Q :=
  let lo := xmin first rest in
  let hi := xmax first rest in
  let rng := hi - lo in
  interp (lo + qmod (x - hi - 1) (rng + 1)) first rest.

(** ** utils.py:281-316 [apply_mask]: the array as its leading cells (the dimensions of the mask),
    each with its values over the additional dimensions; a complex number is a pair. A scalar mask,
    such as the value 1 stored when no mask is configured (bed.py:106-113), has no dimensions. *)
Inductive mask := Scalar (c : Q * Q) | Cells (cs : list (Q * Q)).
Definition mask_value (c : Q * Q) (v : Q) : Q := v * fst c + snd c.
Definition apply_mask (arr : list (list Q)) (m : mask) : list (list Q) :=
  match m with
  | Scalar c => map (map (mask_value c)) arr
  | Cells cs => map2 (fun c vs => map (mask_value c) vs) cs arr
  end.
(** bed.py:106-113: the mask of an unset parameter. *)
Definition mask_of (v : option mask) : mask := match v with None => Scalar (1, 0) | Some m => m end.

(** ** utils.py:340-409: grain sizes of one cell; [mass] is the top layer. *)
Fixpoint cumsum (acc : Q) (l : list Q) : list Q :=
  match l with [] => [] | x :: r => (acc + x) :: cumsum (acc + x) r end.
(** utils.py:370: cumulative mass, starting with 0, as a percentage of its maximum. *)
Definition percentages (mass : list Q) : list Q :=
  let c := cumsum 0 (0 :: mass) in
  map (fun x => 100 * x / qmaxl 0 c) c.
(** scipy's interp1d, kind linear with extrapolation: the first interval whose right end is not below
    the requested value, or the last interval; [interp1d] works on the points after the first. *)
Fixpoint interp1d (x x0 y0 : Q) (rest : list (Q * Q)) : Q :=
  match rest with
  | [] => y0                                     (* not reached: there are at least two points *)
  | (x1, y1) :: rest' =>
      match rest' with
      | [] => (y1 - y0) / (x1 - x0) * (x - x0) + y0
      | _ => if Qle_bool x x1 then (y1 - y0) / (x1 - x0) * (x - x0) + y0 else interp1d x x1 y1 rest'
      end
  end.
(** utils.py:367-375 [calc_grain_size] *)
Definition calc_grain_size (grain_size mass : list Q) (percent : Q) : Q :=
  match combine (percentages mass) (0 :: grain_size) with
  | [] => 0                                      (* not reached *)
  | (x0, y0) :: rest => interp1d percent x0 y0 rest
  end.
(** utils.py:404-408 [calc_mean_grain_size] *)
Definition calc_mean_grain_size (grain_size mass : list Q) : Q :=
  qsum (map2 Qmult grain_size (map (fun m => m / qsum mass) mass)).

(** ** transport.py:371-402 [compute_weights], one cell: concentrations [ct] and [cu] and mass of the
    top layer per fraction, bed interaction parameter [bi]. *)
Definition w_air (ct cu : list Q) : list Q := normalize_ref 0 ct cu.
Definition w_bed (mass : list Q) : list Q := normalize 0 mass.
Definition compute_weights (bi : Q) (ct cu mass : list Q) : list Q :=
  let wa := w_air ct cu in
  let free := 1 - qmin 1 ((1 - bi) * qsum wa) in
  normalize 0 (map2 (fun a b => (1 - bi) * a + free * b) wa (w_bed mass)).

(** transport.py:405-435 [renormalize_weights], one cell. *)
Definition renormalize_weights (w : list Q) (ix : nat) : list Q :=
  let f := qsum (firstn ix w) in
  let w' := firstn ix w ++ map (fun x => x * (1 - f)) (normalize 0 (skipn ix w)) in
  normalize (1 / inject_Z (Z.of_nat (length w))) w'.
