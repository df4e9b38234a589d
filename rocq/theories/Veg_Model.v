(** Model of vegetation growth: /repo/aeolis/vegetation.py:42-72 [initialize], 86-131 [germinate], 134-181 [grow]. Reals instead of
    doubles, no NaN; random numbers are inputs. A cell sees the covers of its (up to four) neighbours; the grid sizes by which the cover
    differences are divided are above0 and do not change their sign. *)
From Verif Require Import Base.
From Coq Require Import Reals.
Open Scope R_scope.

Inductive growth := Orig | DuranMoore.
(** Parameters; [germination] and [lateral_spread] are p['germinate'] and p['lateral']; any type other than 'orig' is DuranMoore. *)
Record params := { veggrowth_type : growth; V_ver : R; hveg_max : R; dzb_opt : R; veg_gamma : R; t_veg : R; v_gam : R; rhoveg_max : R;
  germination : R; lateral_spread : R; dt_opt : R; dt : R; accfac : R; process_tide : bool; veg_min_elevation : R }.
Record cell := { rhoveg : R; hveg : R; dhveg : R; drhoveg : R; germ : R; lat : R }.
(** What happens to the cell in a time step: bed level change per year, bed, water level, random number, covers of the neighbours. *)
Record event := { dzbveg : R; zb : R; zs : R; random : R; neighbours : list R; size : R }.

Definition above0 (x : R) : bool := if Rlt_dec 0 x then true else false.
Definition nonzero (x : R) : bool := if Req_EM_T x 0 then false else true.
Definition leb (x y : R) : bool := if Rle_dec x y then true else false.
Definition num (b : bool) : R := if b then 1 else 0.
Definition year : R := 365.25 * 24 * 3600.

(** vegetation.py:59-70: [v] is the value of the vegetation file; without file the cell keeps its zeros. *)
Definition initialize (p : params) (file : option R) (c : cell) : cell :=
  match file with
  | None => c
  | Some v => let rho := if Rlt_dec v 0 then 0 else v in
      {| rhoveg := rho; hveg := hveg_max p * sqrt rho; dhveg := dhveg c; drhoveg := drhoveg c; germ := num (above0 rho); lat := 0 |}
  end.

(** x ** y of numpy for 0 <= x *)
Definition power (x y : R) : R := if Req_EM_T x 0 then (if Req_EM_T y 0 then 1 else 0) else Rpower x y.
(** vegetation.py:89-97, 113-115: the chances per time step and per cell. *)
Definition steps_per_year (p : params) : R := year / (dt_opt p * accfac p).
Definition per_step (p : params) (per_year : R) : R := 1 - power (1 - per_year) (1 / steps_per_year p).
Definition per_cell (p : params) (dx : R) : R := 1 - power (1 - per_step p (lateral_spread p)) (1 / dx).
(** vegetation.py:117-126: the number of neighbours with more cover. *)
Definition higher (rho : R) (ns : list R) : R := INR (length (filter (fun v => if Rlt_dec rho v then true else false) ns)).
(** vegetation.py:86-131 *)
Definition germinate (p : params) (e : event) (c : cell) : cell :=
  let g0 := num (above0 (rhoveg c)) in
  let new := (leb 0 (dzbveg e) && leb (random e) (per_step p (germination p)))%bool in
  let d := higher (rhoveg c) (neighbours e) in
  {| rhoveg := rhoveg c; hveg := hveg c; dhveg := dhveg c; drhoveg := d;
     germ := Rmin (g0 + num new) 1; lat := Rmin (lat c + num (leb (random e) (per_cell p (size e) * d))) 1 |}.

(** vegetation.py:136-139 *)
Definition active (p : params) (c : cell) : bool := ((nonzero (germ c) || nonzero (lat c)) && above0 (V_ver p))%bool.
(** vegetation.py:142-164 *)
Definition growing (p : params) (e : event) (c : cell) : cell :=
  let dh := if active p c then V_ver p * (1 - hveg c / hveg_max p) - Rabs (dzbveg e - dzb_opt p) * veg_gamma p else dhveg c in
  match veggrowth_type p with
  | Orig =>
      let h := Rmax (Rmin (hveg c + dh * (dt_opt p * accfac p) / year) (hveg_max p)) 0 in
      {| rhoveg := (h / hveg_max p) ^ 2; hveg := h; dhveg := dh; drhoveg := drhoveg c; germ := germ c; lat := lat c |}
  | DuranMoore =>
      let t := t_veg p / 365 in
      let rho := if Rlt_dec (rhoveg_max p) (rhoveg c) then rhoveg_max p else rhoveg c in
      let dr := if active p c
                then (rhoveg_max p - rho) / t - v_gam p / hveg_max p * Rabs (dzbveg e - dzb_opt p) * veg_gamma p
                else drhoveg c in
      let rho1 := rho + dr * (dt p * accfac p) / year in
      let rho2 := if Rlt_dec rho1 0 then 0 else rho1 in
      let rho3 := if Rle_dec rho 0 then 0 else rho2 in
      {| rhoveg := rho3; hveg := hveg_max p * sqrt rho3; dhveg := dh; drhoveg := dr; germ := germ c; lat := lat c |}
  end.
(** vegetation.py:166-181 *)
Definition dying (p : params) (e : event) (c : cell) : cell :=
  let alive := num (nonzero (rhoveg c)) in
  let dry := if process_tide p then num (leb (zs e) (zb e + 1 / 100)) else 1 in
  let low := if Rlt_dec (zb e) (veg_min_elevation p) then true else false in
  {| rhoveg := if low then 0 else rhoveg c * dry; hveg := if low then 0 else hveg c * dry; dhveg := dhveg c; drhoveg := drhoveg c;
     germ := if low then 0 else germ c * alive * dry; lat := if low then 0 else lat c * alive * dry |}.
Definition grow (p : params) (e : event) (c : cell) : cell := dying p e (growing p e c).
(** model.py:340-343 *)
Definition step (p : params) (e : event) (c : cell) : cell := grow p e (germinate p e c).
Definition history (p : params) (es : list event) (c : cell) : cell := fold_left (fun c e => step p e c) es c.
(** constants.py:104-110: all values start at zero. *)
Definition bare : cell := {| rhoveg := 0; hveg := 0; dhveg := 0; drhoveg := 0; germ := 0; lat := 0 |}.
