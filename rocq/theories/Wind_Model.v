(** Model of the wind input: /repo/aeolis/wind.py:46-83 [initialize], 85-146 [interpolate], 148-207 [calculate_z0], 210-270 [shear] for
    one-dimensional models, 272-301 [velocity_stress] and [stress_velocity], 305-355 [compute_shear1d], 358-512 [separation1d]. Reals
    instead of doubles, no NaN. Not modelled here: the two-dimensional shear of shear.py (see Shear_Model.v) and wind fields from external models. *)
From Verif Require Import Base.
From Coq Require Import Reals.
Open Scope R_scope.

Definition gtb (x y : R) : bool := if Rlt_dec y x then true else false.
Definition eqb (x y : R) : bool := if Req_EM_T x y then true else false.
(** Degrees to radians and back. *)
Definition radians (d : R) : R := d / 180 * PI.
Definition degrees (a : R) : R := a * 180 / PI.
(** numpy.hypot *)
Definition hypot (x y : R) : R := sqrt (x * x + y * y).
(** numpy.arctan2 *)
Definition atan2 (y x : R) : R :=
  if Rlt_dec 0 x then atan (y / x)
  else if Rlt_dec x 0 then (if Rle_dec 0 y then atan (y / x) + PI else atan (y / x) - PI)
  else if Rlt_dec 0 y then PI / 2 else if Rlt_dec y 0 then - (PI / 2) else 0.

(** ** The wind file: time, speed, direction. *)
Record sample := { at_t : R; speed : R; dir : R }.
Inductive convention := Nautical | Cartesian | OtherConvention.
Definition with_dir (w : sample) (d : R) : sample := {| at_t := at_t w; speed := speed w; dir := d |}.
(** wind.py:52-67: no file, no conversion. *)
Definition initialize (conv : convention) (file : option (list sample)) : result (option (list sample)) :=
  match file with
  | None => Ok None
  | Some ws =>
      match conv with
      | Nautical => Ok (Some (map (fun w => if eqb (dir w) 0 then with_dir w (1 / 100) else w) ws))
      | Cartesian => Ok (Some (map (fun w => with_dir w (270 - (if eqb (dir w) 270 then 270 + 1 / 100 else dir w))) ws))
      | OtherConvention => Raise ValueError
      end
  end.

(** numpy.interp on increasing times and utils.py:104-141 [interp_circular], of the value [f] of the samples. *)
Fixpoint interp_from (f : sample -> R) (x : R) (a : sample) (rest : list sample) : R :=
  match rest with
  | [] => f a
  | b :: rest' =>
      if Rlt_dec x (at_t b) then (if Rle_dec x (at_t a) then f a else f a + (f b - f a) / (at_t b - at_t a) * (x - at_t a))
      else interp_from f x b rest'
  end.
Definition rmod (a b : R) : R := a - b * IZR (Int_part (a / b)).
Definition first_time (a : sample) (rest : list sample) : R := fold_left Rmin (map at_t rest) (at_t a).
Definition last_time (a : sample) (rest : list sample) : R := fold_left Rmax (map at_t rest) (at_t a).
Definition interp_circular (f : sample -> R) (t : R) (a : sample) (rest : list sample) : R :=
  let lo := first_time a rest in let hi := last_time a rest in
  interp_from f (lo + rmod (t - hi - 1) (hi - lo + 1)) a rest.

(** ** Roughness *)
Inductive roughness := Constant | ConstantNikuradse | MeanInitial | MeanAdaptive | MedianAdaptive | VanRijn | OtherRoughness.
(** Parameters, and the grain sizes of the cell: [mean], [d50] and [d90] from utils.py:340-409 (for one grain size wind.py:189-191 takes
    d50 = grain_size and d90 = 2 * d50). *)
Record params := { method_roughness : roughness; k : R; z : R; kappa : R; rhoa : R; rhog : R; g : R; alfa : R; grain_size : list R; grain_dist : list R }.
Record grains := { mean : R; d50 : R; d90 : R }.
Definition rsum (l : list R) : R := fold_right Rplus 0 l.
Fixpoint products (l m : list R) : list R := match l, m with x :: l', y :: m' => x * y :: products l' m' | _, _ => [] end.
(** wind.py:178-206; an unknown method leaves z0 unassigned (UnboundLocalError, a NameError); at T = 0 the code computes 0 * inf, here
    ZeroDivisionError. *)
Definition calculate_z0 (p : params) (gr : grains) (uw : R) : result R :=
  match method_roughness p with
  | Constant => Ok (k p)
  | ConstantNikuradse => Ok (k p / 30)
  | MeanInitial => Ok (rsum (products (grain_size p) (grain_dist p)) / 30)
  | MeanAdaptive => Ok (mean gr / 30)
  | MedianAdaptive => Ok (2 * d50 gr / 30)
  | VanRijn =>
      let ustar_grain := kappa p * (uw / ln (30 * z p / d90 gr)) in
      let ustar_th := 1 / 10 * sqrt ((rhog p - rhoa p) / rhoa p * g p * d50 gr) in
      let T := (ustar_grain * ustar_grain - ustar_th * ustar_th) / (ustar_th * ustar_th) in
      if Req_EM_T T 0 then Raise ZeroDivisionError else Ok ((d90 gr + 15 * (1 + 1 / T) * d50 gr * T) / 30)
  | OtherRoughness => Raise NameError
  end.

(** ** Wind in a cell *)
Record flow := { uw : R; udir : R; uws : R; uwn : R; ustar : R; ustars : R; ustarn : R; tau : R; taus : R; taun : R }.
(** wind.py:272-286 *)
Definition velocity_stress (rho : R) (s : flow) : flow :=
  let t := rho * (ustar s * ustar s) in
  let ts := if gtb (ustar s) 0 then t * ustars s / ustar s else taus s in
  let tn := if gtb (ustar s) 0 then t * ustarn s / ustar s else taun s in
  let calm := eqb (ustar s) 0 in
  {| uw := uw s; udir := udir s; uws := uws s; uwn := uwn s; ustar := ustar s; ustars := ustars s; ustarn := ustarn s;
     tau := if calm then 0 else hypot ts tn; taus := if calm then 0 else ts; taun := if calm then 0 else tn |}.
(** wind.py:288-301 *)
Definition stress_velocity (rho : R) (s : flow) : flow :=
  let u := sqrt (tau s / rho) in
  let us := if gtb (tau s) 0 then u * taus s / tau s else ustars s in
  let un := if gtb (tau s) 0 then u * taun s / tau s else ustarn s in
  let calm := eqb (tau s) 0 in
  {| uw := uw s; udir := udir s; uws := uws s; uwn := uwn s; ustar := if calm then 0 else u; ustars := if calm then 0 else us; ustarn := if calm then 0 else un;
     tau := tau s; taus := taus s; taun := taun s |}.
(** wind.py:112-133: [u] and [d] are the wind speed and direction (degrees) of the cell. *)
Definition blow (p : params) (gr : grains) (u d : R) (s : flow) : result flow :=
  let us := - u * sin (radians (- alfa p + d)) in
  let un := - u * cos (radians (- alfa p + d)) in
  let* z0 := calculate_z0 p gr (Rabs u) in
  let c := ln (z p / z0) in
  let ss := us * kappa p / c in
  let sn := un * kappa p / c in
  Ok (velocity_stress (rhoa p) {| uw := Rabs u; udir := d; uws := us; uwn := un; ustar := hypot ss sn; ustars := ss; ustarn := sn; tau := tau s; taus := taus s; taun := taun s |}).
(** wind.py:138-144: the copies ustar0, ustars0, ustarn0, tau0, taus0, taun0 for a flat bed. *)
Definition flat_bed (s : flow) : R * R * R * (R * R * R) := ((ustar s, ustar s, ustar s), (tau s, taus s, taun s)).
(** wind.py:112-121: the wind of time t; without wind process or file it stays what it was. *)
Definition wind_at (t : R) (a : sample) (rest : list sample) : R * R :=
  (interp_circular speed t a rest,
   degrees (atan2 (interp_circular (fun w => sin (radians (dir w))) t a rest) (interp_circular (fun w => cos (radians (dir w))) t a rest))).
Definition interpolate (p : params) (process_wind : bool) (file : option (sample * list sample)) (t : R) (gr : grains) (s : flow) : result flow :=
  match process_wind, file with
  | true, Some (a, rest) => let '(u, d) := wind_at t a rest in blow p gr u d s
  | _, _ => blow p gr (uw s) (udir s) s
  end.

(** ** Shear over a one-dimensional bed of n cells; a row is a function of the index, of which the values below n count. *)
Definition row := nat -> R.
Definition flip (n : nat) (r : row) : row := fun i => r (n - 1 - i)%nat.
Definition total (n : nat) (r : row) : R := rsum (map r (seq 0 n)).
(** wind.py:327-331: the slope; zero in the first and the last cell. *)
Definition slope (n : nat) (dx : R) (zb : row) (i : nat) : R :=
  if (Nat.eqb i 0 || Nat.eqb (S i) n)%bool then 0 else (zb (S i) - zb (i - 1)%nat) / 2 / dx.
(** wind.py:335-343, with [j] = i - m: the sum over all other cells but the first. *)
Definition integral (n : nat) (dx : R) (zb : row) (i : nat) : R :=
  rsum (map (fun m => if Nat.eqb m i then 0 else slope n dx zb m / ((INR i - INR m) * PI)) (seq 1 (n - 1))).
Definition speedup (n : nat) (dx : R) (zb : row) (i : nat) : R := Rmax (3 * (integral n dx zb i + 1 * slope n dx zb i) + 1) (1 / 10).
(** wind.py:309-355 *)
Definition perturbed (n : nat) (x zb tauS : row) : row :=
  if Rlt_dec (total n tauS) 0
  then flip n (speedup n (Rabs (flip n x 1%nat - flip n x 0%nat)) (flip n zb))
  else speedup n (Rabs (x 1%nat - x 0%nat)) zb.
Definition with_stress (s : flow) (t ts tn : R) : flow :=
  {| uw := uw s; udir := udir s; uws := uws s; uwn := uwn s; ustar := ustar s; ustars := ustars s; ustarn := ustarn s; tau := t; taus := ts; taun := tn |}.
Definition compute_shear1d (n : nat) (x zb : row) (s : nat -> flow) (i : nat) : flow :=
  let r := perturbed n x zb (fun j => taus (s j)) i in
  let ets := if eqb (tau (s i)) 0 then 0 else taus (s i) / tau (s i) in
  let etn := if eqb (tau (s i)) 0 then 0 else taun (s i) / tau (s i) in
  let t := tau (s i) * r in
  with_stress (s i) t (t * ets) (t * etn).
(** wind.py:246-250: separation in the cell, [h] its height. *)
Definition sheltered (h : R) : R := Rmin (Rmax (1 - 1 / (2 / 10 * (5 / 10)) * h) 0) 1.
Definition separate (rho h : R) (s : flow) : flow :=
  stress_velocity rho (with_stress s (tau s) (taus s * sheltered h) (taun s * sheltered h)).

(** ** wind.py:358-512: the separation surface *)
(** wind.py:377-404: the grid size along the wind and whether the wind comes from the other side; [ud] is udir of the first cell. *)
Definition normal_dir (ud : R) : R := let u := if Rlt_dec ud 360 then ud + 360 else ud in if Rlt_dec 360 u then u - 360 else u.
Definition along (dx ud : R) : R * bool :=
  let u := normal_dir ud in
  if Rlt_dec 180 u then
    (if Rlt_dec u 360 then (dx / cos (radians (Rabs (u - 270))), false)
     else if Req_EM_T u 360 then (1 / 10000, false) else (dx / cos (radians (Rabs (u - 90))), true))
  else if Req_EM_T u 180 then (1 / 10000, false) else (dx / cos (radians (Rabs (u - 90))), true).
Section Bubble.
Variables (n : nat) (dx c mu_b : R) (x z : row).
(** wind.py:432-434: the slope angle in degrees. *)
Definition angle0 (i : nat) : R := if Nat.ltb (S i) n then degrees (atan ((z (S i) - z i) / dx)) else 0.
Definition dzx (i : nat) : R :=
  let first j := if Nat.eqb j 0 then angle0 1 else angle0 j in
  if Nat.eqb (S i) n then first (n - 2)%nat else first i.
(** wind.py:441-446; the third argument of the second logical_and is its output and has no effect. *)
Definition stall0 (i : nat) : bool := (gtb (Rabs (dzx i)) mu_b && gtb 0 (dzx i))%bool.
Definition stall (i : nat) : bool := (stall0 i || (Nat.ltb 0 i && Nat.ltb (S i) n && negb (stall0 i) && stall0 (i - 1)))%bool.
Definition bubble0 (i : nat) : bool := (Nat.ltb (S i) n && negb (stall i) && stall (S i))%bool.
(** wind.py:449-451: shifted by two cells; the last two cells keep their value. *)
Definition bubble (i : nat) : bool := if Nat.ltb i 2 then false else if Nat.ltb (i + 2) n then bubble0 (i + 2)%nat else bubble0 i.
Definition bubbles : list nat := filter bubble (seq 0 n).
(** int(x) of a non-negative number. *)
Definition whole (r : R) : nat := Z.to_nat (Int_part r).
(** wind.py:466-471: the height of the brink over the next cell, five cells on, from where the bed does not fall. *)
Definition brink (i : nat) : R :=
  match filter (fun m => if Rle_dec 0 (dzx m) then true else false) (seq (i + 5) (n - (i + 5))) with
  | [] => z i
  | m :: _ => z i - z m
  end.
(** wind.py:481-486 and 496-502: a cubic from height [h] with slope [d], and its length. *)
Definition reattach (h d : R) : R := Rmin (Rmax (3 * h / (2 * c) * (1 + d / c / 4 + d / c * (d / c) / 8)) (1 / 10)) 200.
Definition cubic (h d ls base xs : R) : R :=
  (2 * h / (ls * ls * ls) + d / (ls * ls)) * (xs * xs * xs) + (- 3 * h / (ls * ls) - 2 * d / ls) * (xs * xs) + d * xs + base.
Definition until (i : nat) (ls : R) : nat := Nat.min (i + whole (ls / dx)) (n - 1).
Definition inside (i e m : nat) : bool := (Nat.leb i m && Nat.ltb m e)%bool.
(** wind.py:490-493: the filter multiplies all Fourier coefficients, and so the surface, by one number, because [count] is the number of the bubble. *)
Definition damp (count : nat) : R :=
  let dk := 2 * PI / fold_left Rmax (map x (seq 1 (n - 1))) (x 0%nat) in exp (- (dk * INR count * dx) ^ 2 / (2 * (15 / 10) ^ 2)).
Record surfaces := { zsep0 : row; zsep1 : row; zsep : row }.
Definition start : surfaces := {| zsep0 := fun _ => 0; zsep1 := fun _ => 0; zsep := z |}.
(** wind.py:461-506 for one bubble. *)
Definition add_bubble (count i : nat) (s : surfaces) : surfaces :=
  let d0 := (z (i - 1)%nat - z (i - 2)%nat) / dx in
  let ls0 := reattach (brink i) d0 in
  let e0 := until i ls0 in
  let s0 := fun m => damp count * (if inside i e0 m then cubic (brink i) d0 ls0 (z i) (x m - x i) else zsep0 s m) in
  let d1 := (s0 (i - 1)%nat - s0 (i - 2)%nat) / dx in
  let ls1 := reattach (z i) d1 in
  let e1 := until i ls1 in
  let s1 := fun m => if inside i e1 m then cubic (z i) d1 ls1 (z i) (x m - x i) else zsep1 s m in
  {| zsep0 := s0; zsep1 := s1; zsep := fun m => if inside i e0 m then Rmax (s1 m) (z m) else zsep s m |}.
Fixpoint add_bubbles (count : nat) (l : list nat) (s : surfaces) : surfaces :=
  match l with [] => s | i :: l' => add_bubbles (S count) l' (add_bubble count i s) end.
(** The three equal rows; the bubbles are counted through. *)
Definition surface (j : nat) : row := zsep (add_bubbles (j * length bubbles) bubbles start).
(** wind.py:509: gaussian_filter1d with sigma 0.2 over the three rows, at the middle one. *)
Definition side_weight : R := exp (- (1 / 2) / (2 / 10 * (2 / 10))) / (1 + 2 * exp (- (1 / 2) / (2 / 10 * (2 / 10)))).
Definition smoothed (m : nat) : R := (1 - 2 * side_weight) * surface 1 m + side_weight * (surface 0 m + surface 2 m).
Definition not_below (m : nat) : R := if Rlt_dec (smoothed m) (z m) then z m else smoothed m.
End Bubble.
Definition separation1d (n : nat) (dx c mu_b ud : R) (x zb : row) : row :=
  let '(dxs, other) := along dx ud in
  if other then flip n (not_below n dxs c mu_b x (flip n zb)) else not_below n dxs c mu_b x zb.

(** wind.py:236-254: [shear] for ny = 0. *)
Definition shear1d (n : nat) (rho dx c mu_b : R) (process_separation : bool) (x zb : row) (s : nat -> flow) (i : nat) : flow :=
  let s1 := stress_velocity rho (compute_shear1d n x zb s i) in
  if process_separation then separate rho (separation1d n dx c mu_b (udir (s 0%nat)) x zb i - zb i) s1 else s1.
