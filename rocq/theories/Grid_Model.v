(** Model of the grid: /repo/aeolis/gridparams.py:38-217 [initialize] (most of it is commented out). Reals instead of doubles; the grid
    has ny + 1 rows and nx + 1 columns, at least two columns. *)
From Coq Require Import Reals.
From Verif Require Import Base Num Time_Model Rotate_Model.
From Verif Require Wind_Model.
Open Scope R_scope.

(** A value per row and column. *)
Definition grid := nat -> nat -> R.
Notation hypot := Wind_Model.hypot.
(** What is computed; [warned] tells whether the warning of line 213 is logged. *)
Record sizes := { alpha : R; ds : grid; dn : grid; dsdn : grid; dsdni : grid; warned : bool }.

Section Grid.
Variables (ny nx : nat) (x yfile : grid).
(** gridparams.py:95-111 *)
Definition y : grid := fun i j => if Nat.eqb ny 0 then 0 else yfile i j.
(** gridparams.py:182-192: degrees *)
Definition angle : R :=
  let dx := x 0%nat 1%nat - x 0%nat 0%nat in
  let dy := y 0%nat 1%nat - y 0%nat 0%nat in
  let a := if Req_EM_T dx 0 then 90 else atan (dy / dx) * 180 / PI in
  if Rle_dec dx 0 then (if Rle_dec dy 0 then a + 180 else a) else a.
(** numpy.mean over the grid *)
Definition flat (v : grid) : list R := flat_map (fun i => map (v i) (seq 0 (S nx))) (seq 0 (S ny)).
Definition rotated (i j : nat) : R * R := rotate1 angle (rmean (flat x), rmean (flat y)) (x i j, y i j).
(** The distance between two points of the rotated grid. *)
Definition span (i j i' j' : nat) : R := hypot (fst (rotated i j) - fst (rotated i' j')) (snd (rotated i j) - snd (rotated i' j')).
(** gridparams.py:182-215 *)
Definition initialize : sizes :=
  let s := if Nat.eqb ny 0 then (fun i j => match j with O => x i 1%nat - x i 0%nat | S k => x i j - x i k end) else (fun _ _ => span 1 0 0 0) in
  let n := if Nat.eqb ny 0 then (fun _ _ => 1) else (fun _ _ => span 0 1 0 0) in
  {| alpha := angle; ds := s; dn := n; dsdn := fun i j => s i j * n i j; dsdni := fun i j => 1 / (s i j * n i j);
     warned := if Nat.eqb ny 0 then false else
       if Rle_dec (x 0%nat 1%nat - x 0%nat 0%nat) 0 then true else if Rle_dec (y 1%nat 0%nat - y 0%nat 0%nat) 0 then true else false |}.
End Grid.
