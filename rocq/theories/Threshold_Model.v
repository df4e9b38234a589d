(** Model of /repo/aeolis/threshold.py and of equilibrium, constant_grainspeed in /repo/aeolis/transport.py, per cell; the
    fractions of a cell are a list. Reals instead of doubles; thresholds may be infinite. *)
From Verif Require Import Base Ext.
From Coq Require Import Reals String.
Open Scope R_scope.

Definition log10 (x : R) : R := ln x / ln 10.
Definition gtb (x y : R) : bool := if Rlt_dec y x then true else false.
Definition ltb (x y : R) : bool := if Rlt_dec x y then true else false.
Definition leb (x y : R) : bool := if Rle_dec x y then true else false.
Definition neqb (x y : R) : bool := if Req_EM_T x y then false else true.
Definition rsuml (l : list R) : R := fold_right Rplus 0 l.

Record params := {
  Aa : R; rhog : R; rhoa : R; rhow : R; grav : R; porosity : R; w15 : R; resw_moist : R; eps : R; csalt : R; beta : R; sigma : R;
  grain_size : list R; grain_dist : list R;
  m : option R;                      (* p['m']: not in DEFAULT_CONFIG (constants.py:249 is a comment) *)
  method_moist : bool;               (* whether p has a key 'method_moist': not in DEFAULT_CONFIG *)
  process_threshold : bool; threshold_file : bool; (* threshold_file: whether one is given *)
  th_grainsize : bool; th_moisture : bool; th_drylayer : bool; th_humidity : bool; th_salt : bool; th_sheltering : bool; th_nelayer : bool;
  process_tide : bool; method_moist_threshold : string }.

(** The moisture formulations of threshold.py:184-232. *)
Inductive method := Belly | Hotta | Chepil | SalehFryear | SalehFryearMod | Shao | Dong2002 | GregoryDarwish | Cornelis | Dong2007.
(** The name of the method, in lower case (the conversion by lower() is left out). *)
Definition method_of (s : string) : option method :=
  if String.eqb s "belly_johnson" then Some Belly else if String.eqb s "hotta" then Some Hotta
  else if String.eqb s "chepil" then Some Chepil else if String.eqb s "saleh_fryear" then Some SalehFryear
  else if String.eqb s "saleh_fryear_mod" then Some SalehFryearMod else if String.eqb s "shao" then Some Shao
  else if String.eqb s "dong_2002" then Some Dong2002 else if String.eqb s "gregory_darwish" then Some GregoryDarwish
  else if String.eqb s "cornelis" then Some Cornelis else if String.eqb s "dong_2007" then Some Dong2007 else None.

(** np.sum(p['grain_size'] * p['grain_dist']) with a one-dimensional distribution (threshold.py:197, 212, 221, 229). *)
Fixpoint wsum (a b : list R) : R := match a, b with x :: a', y :: b' => x * y + wsum a' b' | _, _ => 0 end.
Definition mean_size (p : params) : R := wsum (grain_size p) (grain_dist p).

(** threshold.py:198-209: d in mm. *)
Definition dong_K (d : R) : R :=
  if ltb d (135 / 1000) then 251 / 100 else if ltb d (150 / 1000) then 205 / 100 else if ltb d (200 / 1000) then 275 / 100
  else if ltb d (250 / 1000) then 159 / 100 else if ltb d (400 / 1000) then 187 / 100 else 215 / 100.

(** threshold.py:184-230: the threshold of a moist cell. *)
Definition moist_threshold (p : params) (me : method) (mg : R) (uth : ext) : ext :=
  match me with
  | Belly => emul uth (Fin (Rmax 1 (18 / 10 + 6 / 10 * log10 (mg * 100))))
  | Hotta => eadd uth (Fin (75 / 10 * mg))
  | Chepil => esqrt (eadd (esqr uth) (Fin (6 / 10 * (mg * mg) / (rhoa p * (w15 p * w15 p)))))
  | SalehFryear => Fin (305 / 1000 + 22 / 1000 * mg / w15 p + 506 / 1000 * ((mg / w15 p) * (mg / w15 p)))
  | SalehFryearMod => eadd uth (Fin (22 / 1000 * mg / w15 p + 506 / 1000 * ((mg / w15 p) * (mg / w15 p))))
  | Shao => emul uth (Fin (exp (227 / 10 * mg)))
  | Dong2002 => emul uth (Fin (sqrt (1 + dong_K (mean_size p * 1000) * 100 * mg)))
  | GregoryDarwish => let d := mean_size p in
      emul uth (Fin (sqrt (1 + mg + 6 / PI * (612 / 10000000) / (rhog p * grav p * (d * d))
        + 7388 / 10 / (rhow p * grav p * d) * exp (- (1 / 10) * mg / w15 p) * Rmax (mg - 1 / 2 * w15 p) 0)))
  | Cornelis => let d := mean_size p in
      Fin (sqrt (13 / 1000 * (1 + mg + 17 / 100000 / ((rhog p - rhoa p) * grav p * (d * d))
        * (1 + 300000000000000 * (75 / 1000 * (75 / 1000)) * d / (1000000000 * exp (- (65 / 10) * mg / w15 p)))
        * (rhog p - rhoa p) / rhoa p * grav p * d)))
  | Dong2007 => let d := mean_size p in
      Fin (16 / 100 * sqrt ((rhog p - rhoa p) / rhoa p * grav p * d) * (1 + 4782 / 10 * Rpower mg (152 / 100)))
  end.

(** threshold.py:179: mass content. *)
Definition mass_content (p : params) (moist : R) : R := moist * rhow p / (rhog p * (1 - porosity p)).
(** threshold.py:181: the cells whose threshold is modified. *)
Definition is_moist (p : params) (mg : R) : bool := gtb mg (resw_moist p * rhow p / (rhog p * (1 - porosity p)) + 5 / 1000).
(** threshold.py:157-239, one fraction. *)
Definition moisture1 (p : params) (me : method) (moist : R) (uth : ext) : ext :=
  let mg := mass_content p moist in
  let u := if is_moist p mg then moist_threshold p me mg uth else uth in
  if gtb mg (64 / 1000) then PInf else u.
(** An unknown method: the error message itself uses p['method_moist'] (threshold.py:232). *)
Definition compute_moisture (p : params) (moist : R) (uth : list ext) : result (list ext) :=
  match method_of (method_moist_threshold p) with
  | Some me => Ok (map (moisture1 p me moist) uth)
  | None => Raise (if method_moist p then ValueError else KeyError)
  end.

(** threshold.py:111-134 *)
Definition compute_grainsize (p : params) : list ext :=
  map (fun d => esqrt (Fin ((rhog p - rhoa p) / rhoa p * grav p * d))) (grain_size p).
Definition grainsize (p : params) : list ext := map (fun u => emul (Fin (Aa p)) u) (compute_grainsize p).

(** threshold.py:294-300: [salt] is s['salt'][:,:,0]. *)
Definition salt_factor (p : params) (salt : R) : R := 103 / 100 * exp (1027 / 10000 * 1000 * (csalt p * (1 - salt))).
Definition compute_salt (p : params) (salt : R) (uth : list ext) : list ext := map (fun u => emul u (Fin (salt_factor p salt))) uth.

(** threshold.py:380-394. [mass] is the top layer; its mass is not zero. *)
Fixpoint immobile (ustar : R) (uth : list ext) (mass : list R) : R :=
  match uth, mass with
  | u :: uth', x :: mass' => (if eleb (Fin ustar) u then x else 0) + immobile ustar uth' mass'
  | _, _ => 0
  end.
Definition shelter_factor (p : params) (mm : R) (gd : R) : ext := esqrt (Fin ((1 - mm * gd) * (1 + mm * beta p / sigma p * gd))).
Definition compute_sheltering (p : params) (ustar : R) (mass : list R) (uth : list ext) : result (list ext) :=
  match m p with
  | None => Raise KeyError
  | Some mm => let f := shelter_factor p mm (immobile ustar uth mass / rsuml mass) in Ok (map (fun u => emul u f) uth)
  end.

(** The fields of a cell that the computation reads. *)
Record cell := { moist : R; zb : R; zs : R; salt : R; ustar : R; mass : list R; mask : R * R; ne : R (* p['ne_file'] *) }.
(** The fields it writes; [zne] is written by non_erodible only. *)
Record thresholds := { uth : list ext; uth0 : list ext; uthf : list ext }.

(** threshold.py:397-433 *)
Definition non_erodible (c : cell) (u : list ext) : list ext := if leb (zb c) (ne c + 1 / 100) then map (fun _ => PInf) u else u.

(** threshold.py:43-108. dry_layer is defined nowhere; the definition of compute_humidity is commented out (243-270). th_bedslope
    does nothing (137-154). *)
Definition compute (p : params) (c : cell) (t : thresholds) : result thresholds :=
  let* t1 :=
    if (process_threshold p && negb (threshold_file p))%bool then
      let t := if th_grainsize p then {| uth := grainsize p; uth0 := grainsize p; uthf := uthf t |} else t in
      let* u := if th_moisture p then compute_moisture p (moist c) (uth t)
                else Ok (if (process_tide p && ltb (zb c - zs c) (- eps p))%bool then map (fun _ => PInf) (uth t) else uth t) in
      let* u := if th_drylayer p then Raise NameError else Ok u in
      let* u := if th_humidity p then Raise NameError else Ok u in
      let u := if th_salt p then compute_salt p (salt c) u else u in
      let* u := if th_sheltering p then compute_sheltering p (ustar c) (mass c) u else Ok u in
      let u := map (fun x => eadd (emul x (Fin (fst (mask c)))) (Fin (snd (mask c)))) u in
      Ok {| uth := u; uth0 := uth0 t; uthf := u |}
    else Ok t in
  Ok (if th_nelayer p then {| uth := non_erodible c (uth t1); uth0 := uth0 t1; uthf := uthf t1 |} else t1).

(** ** transport.py:256-368, one cell and one fraction. *)
Inductive transport := Bagnold | BagnoldGs | Kawamura | Lettau | Dk | Sauermann | VanRijnStrypsteen.
Record tparams := { Cb : R; Ck : R; Cl : R; Cdk : R; trhoa : R; tg : R; accfac : R; process_transport : bool }.

(** The concentration computed from a shear velocity and a threshold; [d] is the grain size (used by bagnold_gs only). The
    quotient by u is not present in sauermann. *)
Definition capacity (q : tparams) (tr : transport) (d us : R) (u : R) (th : ext) : ext :=
  let k c := Fin (c * trhoa q / tg q) in
  let diff := esub (Fin us) th in
  match tr with
  | Bagnold => emax (Fin 0) (ediv (emul (k (Cb q)) (ecube diff)) u)
  | BagnoldGs => emax (Fin 0) (ediv (emul (Fin (Cb q * sqrt (d / (25 / 100000)) * trhoa q / tg q)) (ecube diff)) u)
  | Kawamura => emax (Fin 0) (ediv (emul (emul (k (Ck q)) (esqr (eadd (Fin us) th))) diff) u)
  | Lettau => emax (Fin 0) (ediv (emul (emul (k (Cl q)) (esqr (Fin us))) diff) u)
  | Dk => let t8 := emul (Fin (8 / 10)) th in
      emax (Fin 0) (ediv (emul (emul (emul (k (Cdk q)) (Fin (8 / 10))) th) (esub (esqr (Fin us)) (esqr t8))) u)
  | Sauermann => emax (Fin 0) (emul (Fin (2 * (35 / 100) * trhoa q / tg q)) (esub (esqr (Fin us)) (esqr th)))
  | VanRijnStrypsteen => emax (Fin 0) (ediv (emul (k (Cb q)) (esub (ecube (Fin us)) (ecube th))) u)
  end.

Record conc := { Cu : ext; Cuf : ext; Cu0 : ext }.
Record grain := { gu : R; gustar : R; gustar0 : R; guth : ext; guthf : ext; guth0 : ext; gd : R }.
(** bagnold_gs indexes an array of one row with the mask of the grid (transport.py:327-331), which numpy rejects for a grid of more
    than one row. [rows] is the number of rows. *)
Definition equilibrium (q : tparams) (tr : transport) (rows : nat) (g : grain) (c : conc) : result conc :=
  let* c1 :=
    if process_transport q then
      if (match tr with BagnoldGs => negb (Nat.eqb rows 1) | _ => false end) then Raise IndexError
      else
        let ix := (neqb (gustar g) 0 && neqb (gu g) 0)%bool in
        let cap us th := capacity q tr (gd g) us (gu g) th in
        Ok {| Cu := if ix then cap (gustar g) (guth g) else Fin 0;
              Cuf := if ix then cap (gustar g) (match tr with BagnoldGs | VanRijnStrypsteen => guth g | _ => guthf g end) else Fin 0;
              Cu0 := if ix then match tr with
                               | Kawamura | Lettau => Cu0 c
                               | BagnoldGs => cap (gustar g) (guth g)
                               | _ => cap (gustar0 g) (guth0 g)
                               end else Cu0 c |}
    else Ok c in
  Ok {| Cu := emul (Cu c1) (Fin (accfac q)); Cuf := emul (Cuf c1) (Fin (accfac q)); Cu0 := emul (Cu0 c1) (Fin (accfac q)) |}.

(** transport.py:203-253: the grain speed (us, un, u) of the method 'constant'. *)
Definition constant_grainspeed (uw uws uwn us usn ustarv : R) : R * R * R :=
  let s := if neqb ustarv 0 then 1 * us / ustarv else if neqb uw 0 then 1 * uws / uw else 0 in
  let n := if neqb ustarv 0 then 1 * usn / ustarv else if neqb uw 0 then 1 * uwn / uw else 0 in
  (s, n, sqrt (s * s + n * n)).

(** ** transport.py:41-200 [duran_grainspeed], one cell and one fraction.
    The cube root of the code is [Rpower _ (1/3)] of a positive number. *)
Record dparams := { dAa : R; drhog : R; drhoa : R; dg : R; dv : R; dkappa : R; dsize : R }.
Definition d_srho (q : dparams) : R := drhog q / drhoa q.
Definition d_tv (q : dparams) : R := Rpower (dv q / (dg q * dg q)) (1 / 3).
Definition d_lv (q : dparams) : R := Rpower (dv q * dv q / (dAa q * dAa q * dg q * (d_srho q - 1))) (1 / 3).
Definition d_zm (q : dparams) (uth0 : R) : R := 14 / (1 + 14 / 10 * 1) * uth0 * d_tv q.
Definition d_z0 (q : dparams) : R := dsize q / 20.
Definition d_z1 (q : dparams) : R := 35 * d_lv q.
Definition d_alpha (q : dparams) : R := 17 / 100 * dsize q / d_lv q.
Definition d_S (q : dparams) : R := dsize q / (4 * dv q) * sqrt (dg q * dsize q * (d_srho q - 1)).
Definition d_Cd (q : dparams) : R :=
  let r := 95 / 100 + sqrt (2 * d_alpha q) * (512 / 100) / d_S q in 4 / 3 * (r * r).
(** Settling velocity, transport.py:109. *)
Definition d_uf (q : dparams) : R := sqrt (4 / (3 * d_Cd q) * (d_srho q - 1) * dg q * dsize q).
(** transport.py:152-156: wind direction; below 0.05 m/s it is taken from the wind. *)
Definition d_dir (uw uwc ustar ustarc : R) : R := if Rle_dec (5 / 100) ustar then ustarc / ustar else uwc / uw.
(** transport.py:170-177: uth is uth0 (line 70). *)
Definition d_ueff (q : dparams) (uth0 ustar : R) : R :=
  if Rle_dec uth0 ustar
  then uth0 / dkappa q * (ln (d_z1 q / d_z0 q) + d_z1 q / d_zm q uth0 * (ustar / uth0 - 1))
  else 0.
(** transport.py:158-160, 182-198: (us, un, u). [sep] tells whether zsep > zb + 0.01. *)
Definition duran_grainspeed (q : dparams) (uth0 uw uws uwn ustar ustars ustarn dhs dhn : R) (sep : bool) : R * R * R :=
  let ets := d_dir uw uws ustar ustars in
  let etn := d_dir uw uwn ustar ustarn in
  let axs := ets + 2 * d_alpha q * dhs in
  let axn := etn + 2 * d_alpha q * dhn in
  let Ax := sqrt (axs * axs + axn * axn) in
  let us := (d_ueff q uth0 ustar - d_uf q / (sqrt (2 * d_alpha q) * Ax)) * ets - sqrt (2 * d_alpha q) * d_uf q / Ax * dhs in
  let un := (d_ueff q uth0 ustar - d_uf q / (sqrt (2 * d_alpha q) * Ax)) * etn - sqrt (2 * d_alpha q) * d_uf q / Ax * dhn in
  let us := if sep then 1 / 10 * ets else us in
  let un := if sep then 1 / 10 * etn else un in
  (us, un, sqrt (us * us + un * un)).
