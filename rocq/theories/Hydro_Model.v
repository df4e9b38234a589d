(** Model of the water levels, waves and groundwater: /repo/aeolis/hydro.py:44-213 [interpolate], 242-312 (groundwater part of [update]),
    416-466 [Boussinesq] and 468-481 [runup_overheight_distr]. Exact rationals instead of doubles. Water levels and waves
    of an external model ('zs', 'Hs', 'Tp' in external_vars) are in Sea_Model.v. Not modelled: the meteorological dictionary. *)
From Coq Require Import ZArith.
From Verif Require Import Base Num Utils_Model.
Open Scope Q_scope.

(** ** interpolate *)
(** A time series: the first point and the others. *)
Definition timeseries : Type := (Q * Q) * list (Q * Q).
Definition at_time (t : Q) (s : timeseries) : Q := interp_circular t (fst s) (snd s).
(** What is read from the configuration; [stockdon] is calc_runup_stockdon for the beach slope (see Moist_Model.v): wave height and period to
    set-up, swash and runup. *)
Record hydro := { process_tide : bool; tide_file : option timeseries; process_wave : bool; wave_file : option (timeseries * timeseries); gamma : Q;
  process_runup : bool; stockdon : Q -> Q -> Q * Q * Q }.
(** One cell with its complex masks (an unset mask is (1, 0), bed.py:106-113). *)
Record cell := { zb : Q; tide_mask : Q * Q; wave_mask : Q * Q; runup_mask : Q * Q;
  SWL : Q; Hs : Q; Tp : Q; R : Q; eta : Q; TWL : Q; DSWL : Q; Hsmix : Q; zs : Q }.
(** hydro.py:67-104: still water level. *)
Definition still_level (h : hydro) (t : Q) (c : cell) : Q :=
  if process_tide h then mask_value (tide_mask c) (match tide_file h with Some s => at_time t s | None => 0 end) else 0.
(** hydro.py:108-134: wave height and period. *)
Definition wave_height (h : hydro) (t swl : Q) (c : cell) : Q :=
  match process_wave h, wave_file h with
  | true, Some (s, _) => mask_value (wave_mask c) (qmin (qmax 0 (swl - zb c) * gamma h) (at_time t s))
  | _, _ => 0
  end.
Definition wave_period (h : hydro) (t : Q) (c : cell) : Q :=
  match process_wave h, wave_file h with true, Some (_, s) => mask_value (wave_mask c) (at_time t s) | _, _ => 0 end.
Definition tide_and_waves (h : hydro) (t : Q) (c : cell) : cell :=
  let swl := still_level h t c in
  {| zb := zb c; tide_mask := tide_mask c; wave_mask := wave_mask c; runup_mask := runup_mask c; SWL := swl; Hs := wave_height h t swl c; Tp := wave_period h t c;
     R := R c; eta := eta c; TWL := TWL c; DSWL := DSWL c; Hsmix := Hsmix c; zs := zs c |}.
(** hydro.py:143-165: the runup of the first cell holds for the whole row. *)
Definition run_up (h : hydro) (first : cell) (c : cell) : cell :=
  let '(e, _, r) := stockdon h (Hs first) (Tp first) in
  let r' := mask_value (runup_mask c) r in let e' := mask_value (runup_mask c) e in
  {| zb := zb c; tide_mask := tide_mask c; wave_mask := wave_mask c; runup_mask := runup_mask c; SWL := SWL c; Hs := Hs c; Tp := Tp c;
     R := r'; eta := e'; TWL := SWL c + r'; DSWL := SWL c + e'; Hsmix := Hsmix c; zs := zs c |}.
(** hydro.py:182-193 and 208-211: the wave height for mixing; the water level is not below the bed. *)
Definition mixing_height (h : hydro) (t : Q) (c : cell) : Q :=
  match process_wave h, wave_file h with
  | true, Some (s, _) => mask_value (wave_mask c) (qmin (qmax 0 (TWL c - zb c) * gamma h) (at_time t s))
  | _, _ => Hsmix c
  end.
Definition finish (h : hydro) (t : Q) (c : cell) : cell :=
  {| zb := zb c; tide_mask := tide_mask c; wave_mask := wave_mask c; runup_mask := runup_mask c; SWL := SWL c; Hs := Hs c; Tp := Tp c;
     R := R c; eta := eta c; TWL := TWL c; DSWL := DSWL c; Hsmix := mixing_height h t c; zs := if Qltb (SWL c) (zb c) then zb c else SWL c |}.
(** One row of the grid. *)
Definition interpolate (h : hydro) (t : Q) (row : list cell) : list cell :=
  let row1 := map (tide_and_waves h t) row in
  let row2 := if process_runup h then match row1 with [] => [] | first :: _ => map (run_up h first) row1 end else row1 in
  map (finish h t) row2.

(** ** Groundwater. Indices and slices of a numpy array, negative ones from the end; operands of different lengths raise ValueError (none
    of the lengths that occur is one). Reading or writing beyond the ends does not occur for rows of at least four cells. *)
Definition bound_to (n : nat) (z : Z) : nat := if Z.ltb z 0 then Z.to_nat (Z.of_nat n + z) else Nat.min n (Z.to_nat z).
Definition slice (a b : Z) (l : list Q) : list Q :=
  let i := bound_to (length l) a in firstn (bound_to (length l) b - i) (skipn i l).
Definition position (n : nat) (z : Z) : nat := if Z.ltb z 0 then Z.to_nat (Z.of_nat n + z) else Z.to_nat z.
Definition get (z : Z) (l : list Q) : Q := nth (position (length l) z) l 0.
Fixpoint put_nat (i : nat) (v : Q) (l : list Q) : list Q :=
  match l, i with [], _ => [] | _ :: r, O => v :: r | x :: r, S j => x :: put_nat j v r end.
Definition put (z : Z) (v : Q) (l : list Q) : list Q := put_nat (position (length l) z) v l.
Definition put_slice (a b : Z) (vs l : list Q) : result (list Q) :=
  let i := bound_to (length l) a in let m := length (slice a b l) in
  if Nat.eqb (length vs) m then Ok (firstn i l ++ vs ++ skipn (i + m) l) else Raise ValueError.
Definition both (f : Q -> Q -> Q) (l m : list Q) : result (list Q) := if Nat.eqb (length l) (length m) then Ok (map2 f l m) else Raise ValueError.

(** np.argmax / np.argmin of booleans: the first True / False, or 0. *)
Fixpoint first_true (l : list bool) : option nat := match l with [] => None | b :: r => if b then Some O else option_map S (first_true r) end.
Definition argmax (l : list bool) : Z := match first_true l with Some i => Z.of_nat i | None => 0 end.
(** hydro.py:261-265: the last cell before the first one above the level. *)
Definition shore (zb level : list Q) : Z := (argmax (map2 (fun z s => Qltb s z) zb level) - 1)%Z.

(** hydro.py:425-444: boundary conditions, written into the groundwater levels [gw]. [other] is the shoreline index of the row before
    (of the last row for the first one). *)
Record gwcfg := { static : bool; GW_stat : Q; K_gw : Q; ne_gw : Q; D_gw : Q; Cl_gw : Q; seepage : bool; waves : bool }.
Definition edges (g : gwcfg) (shl other : Z) (dswl gw : list Q) : list Q :=
  let gw1 := put shl (get shl dswl) gw in
  let gw2 := put other (get other dswl) gw1 in
  let v := if static g then GW_stat g else get (-4) gw2 in
  put (-3) v (put (-2) v (put (-1) v gw2)).
(** hydro.py:447-451 *)
Definition seep (g : gwcfg) (shl : Z) (zb gw : list Q) : result (list Q) :=
  if seepage g then
    let ixs := argmax (map2 (fun w z => negb (Qle_bool z (w + (1 # 20)))) gw zb) in
    if Z.ltb shl (ixs - 1) then put_slice shl (ixs - 1) (slice shl (ixs - 1) zb) gw else Ok gw
  else Ok gw.
(** hydro.py:454-464 *)
Definition zeros (n : nat) : list Q := repeat 0 n.
Definition change (g : gwcfg) (shl : Z) (ds gw : list Q) : result (list Q) :=
  let n := length gw in
  if Z.ltb shl (Z.of_nat n - 3) then
    let* a1 := both (fun u v => u - 2 * v) (slice (shl + 1) (-1) gw) (slice shl (-2) gw) in
    let* a2 := both Qplus a1 (slice (shl - 1) (-3) gw) in
    let* a3 := both (fun u d => u / (d * d)) a2 (slice shl (-2) ds) in
    let* a := put_slice shl (-2) a3 (zeros n) in
    let* b1 := both Qplus (slice (shl + 1) (-1) gw) (slice (shl - 1) (-3) gw) in
    let* b2 := both Qmult (slice shl (-2) gw) b1 in
    let* b3 := both Qdiv b2 (slice shl (-2) ds) in
    let* b := put_slice shl (-2) b3 (zeros n) in
    let* c1 := both Qminus (slice (shl + 2) (-2) b) (slice shl (-4) b) in
    let* c2 := both Qdiv c1 (slice (shl + 1) (-3) ds) in
    let* c := put_slice (shl + 1) (-3) c2 (zeros n) in
    let* d := both (fun x y => K_gw g / ne_gw g * (D_gw g * x + y)) (slice (shl + 1) (-3) a) (slice (shl + 1) (-3) c) in
    put_slice (shl + 1) (-3) d (zeros n)
  else Ok (zeros n).
(** hydro.py:416-466: the changed levels and the rate of change, for one row. *)
Definition boussinesq (g : gwcfg) (shl other : Z) (dswl ds zb gw : list Q) : result (list Q * list Q) :=
  let* gw' := seep g shl zb (edges g shl other dswl gw) in
  let* r := change g shl ds gw' in Ok (gw', r).

(** hydro.py:468-481: distribution of the infiltrated water. The index of the peak is truncated towards zero. *)
Definition peak (shl run : Z) : Z := Z.quot (3 * shl + 2 * (run - shl)) 3.
Definition overheight (shl run : Z) (x : list Q) : result (list Q) :=
  let p := peak shl run in
  let len := get run x - get shl x in
  let* f1 := put_slice shl p (map (fun v => (v - get shl x) / ((2 # 3) * len)) (slice shl p x)) (zeros (length x)) in
  let* f2 := put_slice (p + 1) run (map (fun v => 3 - (v - get shl x) / ((1 # 3) * len)) (slice (p + 1) run x)) f1 in
  Ok (put p 1 f2).

(** A row of the grid for the groundwater: positions, cell sizes, bed and mask. *)
Record gwrow := { gx : list Q; gds : list Q; gzb : list Q; gmask : list (Q * Q) }.
(** Water levels of a row in a sub-step: still water level with set-up, total water level. *)
Record levels := { dswl : list Q; twl : list Q }.
(** Qred keeps the fractions short when the model is run; it does not change the number. *)
Definition vplus (k : Q) (l m : list Q) : list Q := map2 (fun a b => Qred (a + k * b)) l m.
(** hydro.py:260-312, one sub-step of one row. The first result is the array that was passed in, with its changed boundary values. *)
Definition substep (g : gwcfg) (dtgw : Q) (other : Z) (row : gwrow) (lv : levels) (gw : list Q) : result (list Q * list Q) :=
  let shl := shore (gzb row) (dswl lv) in
  let* r1 := boussinesq g shl other (dswl lv) (gds row) (gzb row) gw in
  let gw1 := fst r1 in let f1 := snd r1 in
  let* r2 := boussinesq g shl other (dswl lv) (gds row) (gzb row) (vplus (dtgw / 2) gw1 f1) in
  let* r3 := boussinesq g shl other (dswl lv) (gds row) (gzb row) (vplus (dtgw / 2) gw1 (snd r2)) in
  let* r4 := boussinesq g shl other (dswl lv) (gds row) (gzb row) (vplus dtgw gw1 (snd r3)) in
  let gw2 := vplus (dtgw / 6) gw1 (vplus 1 (vplus 2 (vplus 2 f1 (snd r2)) (snd r3)) (snd r4)) in
  let* gw3 := if waves g then let* fx := overheight shl (shore (gzb row) (twl lv)) (gx row) in Ok (vplus (Cl_gw g) gw2 fx) else Ok gw2 in
  let gw4 := map2 mask_value (gmask row) gw3 in
  let gw5 := map2 qmin gw4 (gzb row) in
  Ok (gw1, map2 (fun w zl => if Qltb (fst zl) (snd zl) then snd zl else w) gw5 (combine (gzb row) (dswl lv))).
(** All rows: the shoreline index of the previous row, of the last one for the first. *)
Definition previous (shores : list Z) : list Z := last shores 0%Z :: removelast shores.
Fixpoint over_rows (f : Z -> gwrow -> levels -> list Q -> result (list Q * list Q)) (os : list Z) (rows : list gwrow) (lvs : list levels) (gws : list (list Q))
  : result (list (list Q) * list (list Q)) :=
  match os, rows, lvs, gws with
  | o :: os', r :: rows', l :: lvs', w :: gws' =>
    let* x := f o r l w in
    let* rest := over_rows f os' rows' lvs' gws' in
    Ok (fst x :: fst rest, snd x :: snd rest)
  | _, _, _, _ => Ok ([], [])
  end.
Definition substeps1 (g : gwcfg) (dtgw : Q) (rows : list gwrow) (lvs : list levels) (gws : list (list Q)) : result (list (list Q) * list (list Q)) :=
  over_rows (substep g dtgw) (previous (map2 (fun r l => shore (gzb r) (dswl l)) rows lvs)) rows lvs gws.
(** Sub-steps number i, i + 1, ...; the levels of each are found by interpolation. *)
Fixpoint substeps (g : gwcfg) (dtgw : Q) (rows : list gwrow) (lv : nat -> list levels) (i n : nat) (gws : list (list Q)) : result (list (list Q)) :=
  match n with
  | O => Ok gws
  | S m => let* r := substeps1 g dtgw rows (lv i) gws in substeps g dtgw rows lv (S i) m (snd r)
  end.
(** hydro.py:257-258: int(dt / tfac_gw) and int(dt / dt_gw), for non-negative numbers; the second divides by zero when the first is zero. *)
Definition gw_timestep (dt tfac : Q) : Z := Qfloor (dt / tfac).
Definition gw_steps (dt tfac : Q) : result nat :=
  let d := gw_timestep dt tfac in if Z.eqb d 0 then Raise ZeroDivisionError else Ok (Z.to_nat (Qfloor (dt / inject_Z d))).
(** hydro.py:242-312. State: groundwater levels now and in the previous time step. [gw_prev] is the same array as [gw], whose boundary values
    the first sub-step changes. Result: wetting flags, groundwater levels, and those of the previous time step. *)
Definition wetting (gw prev : list (list Q)) : list (list bool) := map2 (map2 (fun w p => Qltb p w)) gw prev.
Definition groundwater (g : gwcfg) (dt tfac : Q) (rows : list gwrow) (lv : nat -> list levels) (gw prev : list (list Q))
  : result (list (list bool) * list (list Q) * list (list Q)) :=
  let* n := gw_steps dt tfac in
  let dtgw := inject_Z (gw_timestep dt tfac) in
  match n with
  | O => Ok (wetting gw prev, gw, gw)
  | S m =>
    let* r := substeps1 g dtgw rows (lv O) gw in
    let* gw' := substeps g dtgw rows lv 1 m (snd r) in
    Ok (wetting gw prev, gw', fst r)
  end.
