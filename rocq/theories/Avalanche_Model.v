(** Model of /repo/aeolis/avalanching.py.
    Grids are index functions: row [j] (y), column [i] (x); [ny], [nx] are the numbers of rows and columns
    (the code's local variables, p['ny']+1 and p['nx']+1). Values outside the grid are never used.
    Reals instead of doubles. *)
From Verif Require Import Base.
From Coq Require Import Reals.
Open Scope R_scope.

Notation grid := (nat -> nat -> R).

(** x > y and x < y as booleans. *)
Definition Rgtb (x y : R) : bool := if Rlt_dec y x then true else false.
Definition Rltb (x y : R) : bool := if Rlt_dec x y then true else false.

(** avalanching.py:206-210, 214-218 (columns or rows [1:-1], before the border is reset): the slope in positive direction of a
    cell with height [c], next cell [up], previous cell [dn]. *)
Definition grad_pos (c up dn : R) : R :=
  if (Rgtb up c && Rgtb dn c)%bool then 0 else if Rgtb up dn then - (c - dn) else c - up.
(** avalanching.py:222-226, 230-234: the slope in negative direction. *)
Definition grad_neg (c up dn : R) : R :=
  if (Rgtb dn c && Rgtb up c)%bool then 0 else if Rgtb dn up then - (c - up) else c - dn.

(** Columns 1:-1, and rows 1:-1. *)
Definition inner (n i : nat) : bool := (Nat.leb 1 i && Nat.ltb (S i) n)%bool.

(** avalanching.py:203-253: component [d] of grad_h_down, after the border has been reset (236-248: first and last column, and
    first and last row unless the grid has one row) and after division by ds (components 0 and 2) or dn (1 and 3). With one row the
    slices 1:-1 of rows are empty, so components 1 and 3 stay zero. *)
Definition grad_down (ny nx : nat) (zb ds dn : grid) (d : nat) (j i : nat) : R :=
  if (inner nx i && (Nat.eqb ny 1 || inner ny j))%bool then
    match d with
    | 0%nat => grad_pos (zb j i) (zb j (S i)) (zb j (pred i)) / ds j i
    | 1%nat => if Nat.eqb ny 1 then 0 else grad_pos (zb j i) (zb (S j) i) (zb (pred j) i) / dn j i
    | 2%nat => grad_neg (zb j i) (zb j (S i)) (zb j (pred i)) / ds j i
    | _ => if Nat.eqb ny 1 then 0 else grad_neg (zb j i) (zb (S j) i) (zb (pred j) i) / dn j i
    end
  else 0.

(** avalanching.py:255-261 (the branch under [if 0] is dead). *)
Definition grad_h (g : nat -> grid) (j i : nat) : R :=
  sqrt (1 / 2 * (g 0%nat j i * g 0%nat j i) + 1 / 2 * (g 1%nat j i * g 1%nat j i)
      + 1 / 2 * (g 2%nat j i * g 2%nat j i) + 1 / 2 * (g 3%nat j i * g 3%nat j i)).

(** avalanching.py:263: np.max over the grid. *)
Definition cells (ny nx : nat) : list (nat * nat) := flat_map (fun j => map (fun i => (j, i)) (seq 0 nx)) (seq 0 ny).
Definition grid_max (ny nx : nat) (f : grid) : R := fold_right Rmax (f 0%nat 0%nat) (map (fun c => f (fst c) (snd c)) (cells ny nx)).

(** avalanching.py:140-146: slope_diff. [nonerod] is (zb - zne) / ds. *)
Definition slope_diff (tan_dyn gh nonerod : R) : R :=
  if Rltb nonerod (gh - tan_dyn) then tanh nonerod
  else if (Rgtb gh tan_dyn && Rgtb nonerod 0)%bool then tanh gh - tanh (9 / 10 * tan_dyn)
  else 0.

(** avalanching.py:148-153, 166-169: flux_down, zero where grad_h is zero. *)
Definition flux (sd gh g : R) : R := if Req_EM_T gh 0 then 0 else sd * g / gh.

(** avalanching.py:159, 175. Components 1 and 3 of the flux are zero on a grid with one row. *)
Definition q_out (f : nat -> grid) (j i : nat) : R :=
  1 / 2 * Rabs (f 0%nat j i) + 1 / 2 * Rabs (f 1%nat j i) + 1 / 2 * Rabs (f 2%nat j i) + 1 / 2 * Rabs (f 3%nat j i).
(** avalanching.py:157, 161-164 (one row), 173, 177-185. *)
Definition q_in (ny nx : nat) (f : nat -> grid) (j i : nat) : R :=
  if Nat.eqb ny 1 then
    if inner nx i then
      1 / 2 * (Rmax (f 0%nat j (pred i)) 0 - Rmin (f 0%nat j (S i)) 0 + Rmax (f 2%nat j (S i)) 0 - Rmin (f 2%nat j (pred i)) 0)
    else 0
  else if (inner ny j && inner nx i)%bool then
    1 / 2 * (Rmax (f 0%nat j (pred i)) 0 - Rmin (f 0%nat j (S i)) 0 + Rmax (f 1%nat (pred j) i) 0 - Rmin (f 1%nat (S j) i) 0
           + Rmax (f 2%nat j (S i)) 0 - Rmin (f 2%nat j (pred i)) 0 + Rmax (f 3%nat (S j) i) 0 - Rmin (f 3%nat (pred j) i) 0)
  else 0.

(** avalanching.py:132, 138-187: one pass of the loop body after the test. *)
Definition fluxes (ny nx : nat) (ds dn zne : grid) (tan_dyn : R) (zb : grid) (d j i : nat) : R :=
  let g := grad_down ny nx zb ds dn in
  flux (slope_diff tan_dyn (grad_h g j i) ((zb j i - zne j i) / ds j i)) (grad_h g j i) (g d j i).
Definition relax (ny nx : nat) (ds dn zne : grid) (tan_dyn : R) (zb : grid) : grid := fun j i =>
  let f := fluxes ny nx ds dn zne tan_dyn zb in
  zb j i + 1 / 5 * (q_in ny nx f j i - q_out f j i).

(** avalanching.py:123-187: the loop, with the break of 134-135. *)
Fixpoint avalanche_loop (ny nx : nat) (ds dn zne : grid) (tan_dyn : R) (n : nat) (zb : grid) : grid :=
  match n with
  | O => zb
  | S n' => if Rltb (grid_max ny nx (grad_h (grad_down ny nx zb ds dn))) tan_dyn then zb
            else avalanche_loop ny nx ds dn zne tan_dyn n' (relax ny nx ds dn zne tan_dyn zb)
  end.

(** np.deg2rad. *)
Definition deg2rad (x : R) : R := x * (PI / 180).

(** avalanching.py:39-69 and 72-189: angele_of_repose followed by avalanche, as called in model.py:323-325, 336-338. Returns the new
    bed level (the field gradh, which is output only, is left out). *)
Definition avalanche (process : bool) (ny nx : nat) (ds dn zne : grid) (theta_stat theta_dyn : R) (max_iter : nat) (zb : grid) : grid :=
  if process then
    let tan_stat := tan (deg2rad theta_stat) in
    let tan_dyn := tan (deg2rad theta_dyn) in
    if Rgtb (grid_max ny nx (grad_h (grad_down ny nx zb ds dn))) tan_stat
    then avalanche_loop ny nx ds dn zne tan_dyn max_iter zb else zb
  else zb.
