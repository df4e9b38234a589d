(** Model of the wind generator: /repo/aeolis/model.py:3010-3232 [WindGenerator]. Rationals instead of doubles, except in [bin_count],
    which follows the rounding of binary64. The Weibull density of model.py:3216-3222 enters as a list of weights, the random numbers
    as a stream. Plotting is not modelled. *)
From Verif Require Import Base Num Solver_Model Linear.
From Coq Require Import SpecFloat.
Open Scope Q_scope.

(** ** model.py:3052-3063: bins *)
Definition bin_size (max_speed : Q) (n_states : nat) : Q := max_speed / inject_Z (Z.of_nat n_states).
(** The centre of bin i: numpy.arange from bin_size/2 in steps of bin_size. *)
Definition bin (max_speed : Q) (n_states i : nat) : Q :=
  bin_size max_speed n_states / 2 + inject_Z (Z.of_nat i) * bin_size max_speed n_states.
(** The number of values of numpy.arange(start, stop, step) is ceil((stop - start)/step), computed in binary64. *)
Definition b64 (z : Z) : spec_float := binary_normalize 53 1024 z 0 false.
Definition ceiling (x : spec_float) : option Z :=
  match x with
  | S754_zero _ => Some 0%Z
  | S754_finite s m e => let v := if s then Z.neg m else Z.pos m in
      Some (if (0 <=? e)%Z then (v * 2 ^ e)%Z else (- ((- v) / 2 ^ (- e)))%Z)
  | _ => None
  end.
Definition bin_count (max_speed n_states : Z) : option Z :=
  let add := SFadd 53 1024 in let sub := SFsub 53 1024 in let div := SFdiv 53 1024 in
  let b := div (b64 max_speed) (b64 n_states) in
  let start := div b (b64 2) in
  let stop := add (b64 max_speed) (div b (b64 2)) in
  ceiling (div (sub stop start) b).

(** ** model.py:3065-3095: the transition matrix. [m] is the number of bins, [n] the number of states (rows of G). *)
(** model.py:3070-3073: G[x][y] = 2 ** -|x - y| *)
Definition closeness (x y : nat) : Q := (1 # 2) ^ Z.of_nat (Nat.max x y - Nat.min x y).
(** model.py:3225-3228 [matmult4]: map stops at the shorter of row and vector. *)
Definition spread (n m : nat) (p : nat -> Q) : nat -> Q := memo n (fun x => sumn (Nat.min n m) (fun y => closeness x y * p y)).
Definition weighted (n m : nat) (p : nat -> Q) : nat -> Q :=
  let v := spread n m p in memo m (fun x => sumn (Nat.min m n) (fun y => (if Nat.eqb x y then p x else 0) * v y)).
(** model.py:3085-3086: r, normalised *)
Definition realised (n m : nat) (p : nat -> Q) : nat -> Q :=
  let r := weighted n m p in let s := sumn m r in memo m (fun x => r x / s).
(** model.py:3087-3090 *)
Definition refine (n m : nat) (p0 p : nat -> Q) : nat -> Q := let r := realised n m p in memo m (fun x => p x + (1 # 2) * (p0 x - r x)).
Definition mean_square (m : nat) (p q : nat -> Q) : Q := sumn m (fun x => (p x - q x) * (p x - q x)) / inject_Z (Z.of_nat m).
(** model.py:3081-3091: while the root of the mean square exceeds 1e-10, i.e. the mean square 1e-20; None: not finished within [fuel] rounds. *)
Fixpoint settle (n m : nat) (p0 p : nat -> Q) (fuel : nat) : option (nat -> Q) :=
  match fuel with
  | O => None
  | S fuel' => let p' := refine n m p0 p in
      if Qltb (1 # 100000000000000000000) (mean_square m p' p) then settle n m p0 p' fuel' else Some p'
  end.
(** model.py:3066-3067: the requested distribution, from weights w. *)
Definition requested (m : nat) (w : nat -> Q) : nat -> Q := memo m (fun x => w x / sumn m w).
(** model.py:3093-3095: row x of MTM and of its cumulative sum. *)
Definition chance (n : nat) (p : nat -> Q) (x y : nat) : Q := 1 / spread n n p x * (closeness x y * p y).
Definition cumulative (n : nat) (p : nat -> Q) (x y : nat) : Q := sumn (S y) (chance n p x).

(** ** model.py:3138-3158: [update], with random numbers r1, r2. *)
Fixpoint first_above (cum : nat -> Q) (r : Q) (from count : nat) : result nat :=
  match count with
  | O => Raise StopIteration
  | S count' => if Qltb r (cum from) then Ok from else first_above cum r (S from) count'
  end.
Definition update (max_speed : Q) (n : nat) (p : nat -> Q) (state : nat) (r : Q * Q) : result (nat * Q) :=
  let* j := first_above (cumulative n p state) (fst r) 0 n in
  Ok (j, qmax 0 (bin max_speed n j - (1 # 2) + snd r * bin_size max_speed n)).
(** model.py:3111-3136: [generate]; the series so far is in reverse order; None: not finished within [fuel] rounds. *)
Fixpoint run (max_speed : Q) (n : nat) (p : nat -> Q) (rs : nat -> Q * Q) (dt duration t : Q) (i state : nat) (us : list Q) (fuel : nat) : option (result (list Q)) :=
  if Qltb t duration then
    match fuel with
    | O => None
    | S fuel' =>
        match update max_speed n p state (rs i) with
        | Raise e => Some (Raise e)
        | Ok (state', u) => run max_speed n p rs dt duration (t + dt) (S i) state' (u :: us) fuel'
        end
    end
  else Some (Ok (rev us)).
Definition generate (max_speed : Q) (n : nat) (p : nat -> Q) (rs : nat -> Q * Q) (dt duration : Q) (fuel : nat) : option (result (list Q)) :=
  match update max_speed n p 0 (rs 0%nat) with
  | Raise e => Some (Raise e)
  | Ok (state, u) => run max_speed n p rs dt duration 0 1 state [u] fuel
  end.
(** model.py:3160-3183: rows of the file: time, speed, direction. *)
Definition time_series (dt : Q) (us : list Q) : list (Q * Q * Q) :=
  map (fun iu => (inject_Z (Z.of_nat (fst iu)) * dt, snd iu, 0)) (combine (seq 0 (length us)) us).
