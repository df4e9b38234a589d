(** Model of soil moisture, salt, evaporation and wave runup: /repo/aeolis/hydro.py:318-412 (second part of [update]), 193-205, 483-511 [hdelta],
    513-548 [SWR_curve], 550-623 [evaporation], 625-670 [calc_runup_stockdon]; one cell. Reals instead of doubles. *)
From Verif Require Import Base.
From Coq Require Import Reals.
Open Scope R_scope.

Definition gtb (x y : R) : bool := if Rlt_dec y x then true else false.
Definition geb (x y : R) : bool := if Rle_dec y x then true else false.
(** x ** n of a non-negative number and a non-zero exponent. *)
Definition pw (x n : R) : R := if Rlt_dec 0 x then Rpower x n else 0.

(** Parameters; [salt_thick] is p['layer_thickness'], [z] the height of the wind measurement, [groundwater] is None, False or True. *)
Record soil := { porosity : R; eps : R; Tdry : R; Tsalt : R; fc : R; thick : R; salt_thick : R; cpair : R; z : R;
  resw : R; satw : R; alfaw : R; nw : R; mw : R; resd : R; satd : R; alfad : R; nd : R; md : R }.
Inductive method := Infiltration | SurfMoisture | OtherMethod.
Record switches := { process_moist : bool; moist_method : method; groundwater_param : option bool; process_scanning : bool; process_salt : bool }.
(** Temperature, radiation, pressure, humidity and rain: met['T'], met['Q'], met['P'], met['U'], met['RH']. *)
Record weather := { temp : R; rad : R; pres : R; hum : R; rain : R }.
(** The fields of a cell that are read and written. *)
Record cell := { moist : R; TWL : R; zb : R; gw : R; gw_prev : R; uw : R; wetting : bool; scan_w : bool; scan_d : bool; h_delta : R;
  w_h : R; d_h : R; scan_w_moist : R; scan_d_moist : R; moist_swr : R; salt : R }.

(** ** Drying *)
(** hydro.py:320, 333, 406: exp(-F * dt) with F = -log(.5) / T. *)
Definition decay (T dt : R) : R := exp (- (- ln (1 / 2) / T) * dt).
(** hydro.py:321: the flooded cells. *)
Definition flooded (p : soil) (c : cell) : bool := gtb (TWL c - zb c) (eps p).
(** hydro.py:320-325 *)
Definition infiltrate (p : soil) (dt : R) (c : cell) : R :=
  let m := if flooded p c then porosity p else moist c * decay (Tdry p) dt in Rmax 0 (Rmin (porosity p) m).
(** hydro.py:333-334 *)
Definition drain (p : soil) (dt m : R) : R := m + Rmin 0 ((m - fc p) * (decay (Tdry p) dt - 1)).

(** ** Evaporation *)
(** hydro.py:605-623 *)
Definition saturation_pressure (T : R) : R := 6108 / 10000 * exp (1727 / 100 * T / (T + 2373 / 10)).
(** hydro.py:584-602 *)
Definition vaporation_pressure_slope (T : R) : R := 4098 * saturation_pressure T / ((T + 2373 / 10) * (T + 2373 / 10)).
(** hydro.py:572-579, in mm/day. *)
Definition log10 (x : R) : R := ln x / ln 10.
Definition evaporation (p : soil) (w : weather) (uw : R) : R :=
  let l := 226 / 100 in
  let m := vaporation_pressure_slope (temp w) in
  let delta := saturation_pressure (temp w) * (1 - hum w / 100) in
  let gamma := cpair p * pres w / (622 / 1000 * l) in
  let u2 := 174 / 1000 / log10 (z p / 2) * uw in
  (m * rad w + 643 / 100 * gamma * delta * (1 + 86 / 100 * u2)) / (l * (m + gamma)).
(** hydro.py:342-345: m/s. *)
Definition evo (p : soil) (w : weather) (c : cell) : R := evaporation p w (uw c) / 24 / 3600 / 1000.
Definition pcp (w : weather) : R := rain w / 3600 / 1000.
(** hydro.py:333-347: the moisture before capillary rise. Flooded means here that the water level is above the bed. *)
Definition soaked (c : cell) : bool := gtb (TWL c) (zb c).
Definition surface_balance (p : soil) (w : weather) (dt : R) (c : cell) : R :=
  if soaked c then satd p
  else Rmin (Rmax (drain p dt (moist c) + (pcp w - evo p w c) * dt / thick p) (resw p)) (satd p).

(** ** Capillary rise *)
(** hydro.py:357-358, 366-376, 389-392: a main curve. *)
Definition curve (res sat alfa n m h : R) : R := res + (sat - res) / pw (1 + pw (Rabs (alfa * h)) n) m.
Definition wet_curve (p : soil) (h : R) : R := curve (resw p) (satw p) (alfaw p) (nw p) (mw p) h.
Definition dry_curve (p : soil) (h : R) : R := curve (resd p) (satd p) (alfad p) (nd p) (md p) h.
(** hydro.py:352, 359, 489: distance to the groundwater in cm. *)
Definition head (c : cell) : R := Rmax 0 ((zb c - gw c) * 100).
(** hydro.py:378-382: the scanning curves, before they are limited to the main curves. *)
Definition scan_w_raw (p : soil) (wh dh whd dhd : R) : R := wh + (satw p - wh) / Rmax (satw p - whd) (1 / 10000) * (dhd - whd).
Definition scan_d_raw (p : soil) (wh dh whd : R) : R := wh + (whd - wh) / Rmax (satd p - wh) (1 / 10000) * (dh - wh).
Definition limited (wh dh x : R) : R := Rmax (Rmin x dh) wh.
(** hydro.py:492-497: reversal on a wetting scanning curve; the base of the outer power is not negative when satw is not below resw. *)
Definition reversal_to_dry (p : soil) (scanw wh dh : R) : R :=
  let whd := Rmin ((scanw - wh) * (satd p - wh) / (dh - wh) + wh) (satw p) in
  Rmax (1 / alfaw p * pw (pw ((satw p - resw p) / Rmax (whd - resw p) (1 / 100000)) (1 / mw p) - 1) (1 / nw p)) 0.
(** hydro.py:505-508: the function whose zero is searched. *)
Definition scan_gap (p : soil) (wh scand h : R) : R :=
  wh + (satw p - wh) / Rmax (satw p - wet_curve p h) (1 / 10000) * (dry_curve p h - wet_curve p h) - scand.
(** hydro.py:501-510: the search, with steps of 0.01; [None] when it has not ended after [fuel] steps. *)
Fixpoint search (p : soil) (wh scand : R) (fuel : nat) (F h : R) : option R :=
  if gtb F (1 / 100) then
    match fuel with
    | O => None
    | S k => search p wh scand k (scan_gap p wh scand (h + 1 / 100)) (h + 1 / 100)
    end
  else Some h.
(** hydro.py:483-511 [hdelta], one cell; the three tests in turn. *)
Definition hdelta (p : soil) (fuel : nat) (c : cell) : option R :=
  let falling := gtb (gw_prev c) (gw c) in
  let rising := gtb (gw c) (gw_prev c) in
  let h1 := if ((negb (scan_w c) && wetting c && falling) || (negb (scan_d c) && negb (wetting c) && rising))%bool then head c else h_delta c in
  let h2 := if (scan_w c && wetting c && falling)%bool then reversal_to_dry p (scan_w_moist c) (w_h c) (d_h c) else h1 in
  if (scan_d c && negb (wetting c) && rising)%bool then search p (w_h c) (scan_d_moist c) fuel 1 0 else Some h2.
(** hydro.py:513-548 [SWR_curve]: moisture, scan_d, scan_w; the last line is reached in none of the six cases. *)
Definition swr_curve (p : soil) (c : cell) (wh dh sw sd : R) : R * bool * bool :=
  let up := geb (gw c) (gw_prev c) in
  let down := gtb (gw_prev c) (gw c) in
  if (up && wetting c && negb (scan_w c))%bool then (wh, false, false)
  else if (up && negb (wetting c))%bool then (sw, false, gtb sw wh)
  else if (up && wetting c && scan_w c)%bool then (sw, false, gtb sw wh)
  else if (down && negb (wetting c) && negb (scan_d c))%bool then (dh, false, false)
  else if (down && wetting c)%bool then (sd, gtb dh sd, false)
  else if (down && negb (wetting c) && scan_d c)%bool then (sd, gtb dh sd, false)
  else (moist_swr c, scan_d c, scan_w c).
Definition with_capillary (c : cell) (hd wh dh sw sd swr : R) (scd scw : bool) : cell :=
  {| moist := moist c; TWL := TWL c; zb := zb c; gw := gw c; gw_prev := gw_prev c; uw := uw c; wetting := wetting c; scan_w := scw; scan_d := scd;
     h_delta := hd; w_h := wh; d_h := dh; scan_w_moist := sw; scan_d_moist := sd; moist_swr := swr; salt := salt c |}.
(** hydro.py:352-392: the capillary moisture. [t0] tells whether the time is zero; lines 360-361 compare instead of assigning and do nothing. *)
Definition capillary (p : soil) (scanning t0 : bool) (fuel : nat) (c : cell) : option cell :=
  let h := head c in
  if scanning then
    if t0 then Some (with_capillary c (head c) (w_h c) (d_h c) (scan_w_moist c) (scan_d_moist c) (wet_curve p h) (scan_d c) (scan_w c))
    else match hdelta p fuel c with
         | None => None
         | Some hd =>
           let wh := wet_curve p h in let whd := wet_curve p hd in
           let dh := dry_curve p h in let dhd := dry_curve p hd in
           let sw := limited wh dh (scan_w_raw p wh dh whd dhd) in
           let sd := limited wh dh (scan_d_raw p wh dh whd) in
           let '(swr, scd, scw) := swr_curve p c wh dh sw sd in
           Some (with_capillary c hd wh dh sw sd swr scd scw)
         end
  else Some (with_capillary c (h_delta c) (w_h c) (d_h c) (scan_w_moist c) (scan_d_moist c)
               (if wetting c then wet_curve p h else dry_curve p h) (scan_d c) (scan_w c)).
Definition with_moist (c : cell) (m : R) : cell :=
  {| moist := m; TWL := TWL c; zb := zb c; gw := gw c; gw_prev := gw_prev c; uw := uw c; wetting := wetting c; scan_w := scan_w c; scan_d := scan_d c;
     h_delta := h_delta c; w_h := w_h c; d_h := d_h c; scan_w_moist := scan_w_moist c; scan_d_moist := scan_d_moist c; moist_swr := moist_swr c; salt := salt c |}.
(** hydro.py:328-396 without the test of lines 329-330. *)
Definition surface (p : soil) (scanning t0 : bool) (fuel : nat) (w : weather) (dt : R) (c : cell) : option cell :=
  let m := surface_balance p w dt c in
  match capillary p scanning t0 fuel c with
  | None => None
  | Some c1 => Some (with_moist c1 (Rmin (Rmax m (moist_swr c1)) (satd p)))
  end.

(** ** Salt: hydro.py:404-410. [ix] tells whether the cell is flooded. *)
Definition salt_update (p : soil) (w : weather) (dt : R) (ix : bool) (s : R) : R :=
  Rmin 1 ((if ix then 1 else s * decay (Tsalt p) dt) + pcp w * dt / salt_thick p).
Definition with_salt (c : cell) (s : R) : cell :=
  {| moist := moist c; TWL := TWL c; zb := zb c; gw := gw c; gw_prev := gw_prev c; uw := uw c; wetting := wetting c; scan_w := scan_w c; scan_d := scan_d c;
     h_delta := h_delta c; w_h := w_h c; d_h := d_h c; scan_w_moist := scan_w_moist c; scan_d_moist := scan_d_moist c; moist_swr := moist_swr c; salt := s |}.

(** hydro.py:193-205: the weather is read from its file with the surface moisture method only; s['meteo'] does not exist otherwise. *)
Definition meteo (sw : switches) (file : option weather) : result weather :=
  match process_moist sw, moist_method sw, file with true, SurfMoisture, Some w => Ok w | _, _, _ => Raise KeyError end.
(** hydro.py:318-412: everything after the groundwater. [None]: the search of [hdelta] has not ended. The name ix is only assigned when the
    moisture is computed (UnboundLocalError, a NameError, otherwise). *)
Definition update (sw : switches) (p : soil) (t0 : bool) (fuel : nat) (file : option weather) (dt : R) (c : cell) : result (option cell) :=
  let* r :=
    if process_moist sw then
      match moist_method sw with
      | Infiltration => Ok (Some (with_moist c (infiltrate p dt c), Some (flooded p c)))
      | SurfMoisture =>
        match groundwater_param sw with
        | None => Raise ValueError
        | Some _ =>
          let* w := meteo sw file in
          Ok (match surface p (process_scanning sw) t0 fuel w dt c with Some c1 => Some (c1, Some (soaked c)) | None => None end)
        end
      | OtherMethod => Raise ValueError
      end
    else Ok (Some (c, None)) in
  match r with
  | None => Ok None
  | Some (c1, ix) =>
    if process_salt sw then
      let* w := meteo sw file in
      match ix with
      | None => Raise NameError
      | Some b => Ok (Some (with_salt c1 (salt_update p w dt b (salt c1))))
      end
    else Ok (Some c1)
  end.

(** ** Runup: hydro.py:625-670: set-up, swash, runup. *)
Definition wavelength (Tp : R) : R := 981 / 100 * Tp * Tp / (2 * PI).
(** Division by a zero wave length gives infinity, and the quotient by its root zero. *)
Definition iribarren (Ho Lo beta : R) : R := if Req_EM_T Lo 0 then 0 else beta / sqrt (Ho / Lo).
Definition dissipative (Ho Lo : R) : R * R * R :=
  let r := 43 / 1000 * sqrt (Ho * Lo) in let s := 46 / 1000 * sqrt (Ho * Lo) / 2 in (r - s, s, r).
Definition reflective (Ho Lo beta : R) : R * R * R :=
  let e := 35 / 100 * beta * sqrt (Ho * Lo) in
  let s := sqrt (Ho * Lo * (563 / 1000 * (beta * beta) + 4 / 10000)) * 2 / 2 / 2 in (e, s, 11 / 10 * (e + s)).
(** hydro.py:648-668: scalars. *)
Definition runup_scalar (Ho Tp beta : R) : R * R * R :=
  if (gtb Ho 0 && gtb Tp 0 && gtb beta 0)%bool then
    let Lo := wavelength Tp in
    if gtb (3 / 10) (iribarren Ho Lo beta) then dissipative Ho Lo else reflective Ho Lo beta
  else (0, 0, 0).
(** hydro.py:630-646: one element of arrays; elements selected by neither mask stay zero. *)
Definition runup_array (Ho Tp beta : R) : R * R * R :=
  let Lo := wavelength Tp in
  let i := iribarren Ho Lo beta in
  let r1 := if (gtb Ho 0 && gtb (3 / 10) i)%bool then dissipative Ho Lo else (0, 0, 0) in
  if (gtb Ho 0 && gtb i (3 / 10))%bool then reflective Ho Lo beta else r1.
