(** Model of sheltering: /repo/aeolis/vegetation.py:75-83 [vegshear], 184-260 [vegshear_okin], 263-291 [vegshear_raupach] and
    /repo/aeolis/fences.py:58-66 [update_fences], 458-532 [fence_shear1d]. Reals instead of doubles. The two-dimensional fence
    shear, fences.py:85-455, is in Fence2_Model.v. *)
From Coq Require Import Reals.
From Verif Require Import Base Wind_Model.
Open Scope R_scope.

(** ** Okin: a row of n cells with positions x and heights h of plants or fences. *)
(** vegetation.py:196, 207-211 (plants), fences.py:471, 483-487 (fences): the wind direction, turned. *)
Definition turned_plants (udir : R) : R := let u := udir + 180 in let u := if Rlt_dec u 0 then u + 360 else u in if Rlt_dec 360 u then u - 360 else u.
Definition turned_fences (udir : R) : R := let u := udir + 180 in let u := if Rlt_dec u 360 then u + 360 else u in if Rlt_dec 360 u then u - 360 else u.
Definition to_left (u : R) : bool := if Rle_dec 180 u then (if Rle_dec u 360 then true else false) else false.
(** vegetation.py:220-223: the distance of cell j behind the plant in cell i. *)
Definition behind (left : bool) (x : row) (i j : nat) : R := if left then - (x j - x i) else x j - x i.
(** vegetation.py:217-241: the reduction at distance d behind a plant of height h. *)
Definition multiple (intercept c1 h d : R) : R :=
  if Rle_dec 0 d then (if Rlt_dec (d / h) 20 then intercept + (1 - intercept) * (1 - exp (- d * c1 / h)) else 1) else 1.
Definition reduction (intercept c1 h d : R) : R :=
  let r := 1 - multiple intercept c1 h d in
  let r := if Rlt_dec r (1 / 100000) then 0 else r in
  let r := if Rlt_dec 1 r then 1 else r in
  if Rlt_dec d 0 then 0 else r.
(** vegetation.py:214-248: plants in cells with positive height; reductions add up to at most one. *)
Definition total_reduction (intercept c1 : R) (left : bool) (n : nat) (x h : row) (j : nat) : R :=
  let r := rsum (map (fun i => if Rlt_dec 0 (h i) then reduction intercept c1 (h i) (behind left x i j) else 0) (seq 0 n)) in
  if Rlt_dec 1 r then 1 else r.
Definition with_velocity (s : flow) (u us un : R) : flow :=
  {| uw := uw s; udir := udir s; uws := uws s; uwn := uwn s; ustar := u; ustars := us; ustarn := un; tau := tau s; taus := taus s; taun := taun s |}.
(** vegetation.py:188-195: direction of the shear velocity; zero where there is none. *)
Definition unit (component magnitude : R) : R := if Req_EM_T magnitude 0 then 0 else component / magnitude.
Definition redirect (s : flow) (u : R) : flow := with_velocity s u (u * unit (ustars s) (ustar s)) (u * unit (ustarn s) (ustar s)).
(** vegetation.py:250-258: at least 0.01. *)
Definition okin (intercept c1 : R) (left : bool) (n : nat) (x h : row) (s : nat -> flow) (j : nat) : flow :=
  let u := ustar (s j) * (1 - total_reduction intercept c1 left n x h j) in
  redirect (s j) (if Rlt_dec u (1 / 100) then 1 / 100 else u).
(** vegetation.py:75-83 for okin and ny = 0, and fences.py:58-66 for ny = 0; the direction of the wind is that of the first cell. *)
Definition vegshear_okin (rho intercept c1 : R) (n : nat) (x h : row) (s : nat -> flow) (j : nat) : flow :=
  velocity_stress rho (okin intercept c1 (to_left (turned_plants (udir (s 0%nat)))) n x h s j).
Definition fence_shear1d (rho intercept c1 : R) (n : nat) (x h : row) (s : nat -> flow) (j : nat) : flow :=
  velocity_stress rho (okin intercept c1 (to_left (turned_fences (udir (s 0%nat)))) n x h s j).

(** ** Raupach: a grid of ny rows and nx columns. *)
Definition grid := nat -> nat -> R.
(** scipy.ndimage.gaussian_filter with mode 'reflect': the kernel reaches int(4 sigma + 0.5) cells, and is applied along the columns, then along the rows. *)
Definition radius (sigma : R) : nat := whole (4 * sigma + 1 / 2).
Definition weight (sigma : R) (k : Z) : R := exp (- (1 / 2) / (sigma * sigma) * (IZR k * IZR k)).
Definition reflected (n : nat) (k : Z) : nat :=
  let m := Z.to_nat (k mod (2 * Z.of_nat n)) in if Nat.ltb m n then m else (2 * n - 1 - m)%nat.
Definition offsets (sigma : R) : list Z := map (fun m => (Z.of_nat m - Z.of_nat (radius sigma))%Z) (seq 0 (2 * radius sigma + 1)).
Definition smooth (sigma : R) (n : nat) (v : nat -> R) (i : nat) : R :=
  rsum (map (fun k => weight sigma k * v (reflected n (Z.of_nat i + k)%Z)) (offsets sigma)) / rsum (map (weight sigma) (offsets sigma)).
Definition gaussian_filter (sigma : R) (ny nx : nat) (v : grid) : grid :=
  fun i j => smooth sigma nx (fun j' => smooth sigma ny (fun i' => v i' j') i) j.
(** vegetation.py:277-284 *)
Definition bare_fraction (roughness : R) (cover : grid) : grid := fun i j => 1 / sqrt (1 + roughness * cover i j).
Definition vegfac (roughness sigma : R) (ny nx : nat) (cover : grid) : grid := gaussian_filter sigma ny nx (bare_fraction roughness cover).
(** vegetation.py:263-291 and 75-83 *)
Definition vegshear_raupach (rho roughness sigma : R) (ny nx : nat) (cover : grid) (s : nat -> nat -> flow) (i j : nat) : flow :=
  velocity_stress rho (redirect (s i j) (ustar (s i j) * vegfac roughness sigma ny nx cover i j)).
