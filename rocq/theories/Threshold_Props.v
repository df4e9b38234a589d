(** Thresholds, transport capacity and grain speed: C28-C30, C58-C62. *)
From Coq Require Import Reals String.
From Verif Require Import Base Ext Threshold_Model Threshold_Spec Threshold_Proofs Threshold_Cases.
Open Scope R_scope.

(** The concentration is never negative, zero below the threshold and positive above it. Missing part: formulation dk, which is zero
    only below 0.8 of the threshold (C28_dk_refuted). *)
Theorem C28_below_threshold_partial : forall q tr rows g c c', good_t q -> 0 < accfac q -> process_transport q = true -> good_g g -> equilibrium q tr rows g c = Ok c' ->
  exists x, Cu c' = Fin x /\ 0 <= x /\ (tr <> Dk -> ele (Fin (gustar g)) (guth g) -> x = 0) /\
    (tr = Dk -> ele (Fin (gustar g)) (emul (Fin (8 / 10)) (guth g)) -> x = 0) /\
    (tr <> Dk -> 0 < gu g -> ~ ele (Fin (gustar g)) (guth g) -> 0 < x).
Proof. exact C28_all. Qed.
Print Assumptions C28_below_threshold_partial.
Example C28_below_threshold_partial_case : good_g (gcell (3 / 10) (2 / 10) (2 / 10)) /\ exists c', equilibrium qdef Bagnold 1 (gcell (3 / 10) (2 / 10) (2 / 10)) calm = Ok c'.
Proof. exact C28_ex. Qed.

(** Formulation dk moves sand below the threshold. *)
Theorem C28_dk_refuted : exists q g c c' x, good_t q /\ accfac q = 1 /\ process_transport q = true /\ good_g g /\ equilibrium q Dk 1 g c = Ok c' /\
  ele (Fin (gustar g)) (guth g) /\ Cu c' = Fin x /\ 0 < x.
Proof. exact dk_refuted. Qed.
Print Assumptions C28_dk_refuted.

(** With a threshold file the fluid threshold stays 0, and the fluid concentration is positive below the threshold. *)
Theorem C28_threshold_file_refuted : exists p cl t t' q g c c' x, compute p cl t = Ok t' /\ threshold_file p = true /\ uthf t = [Fin 0] /\ uth t' = [guth g] /\ uthf t' = [guthf g] /\
  good_t q /\ process_transport q = true /\ good_g g /\ equilibrium q Bagnold 1 g c = Ok c' /\ ele (Fin (gustar g)) (guth g) /\ Cu c' = Fin 0 /\ Cuf c' = Fin x /\ 0 < x.
Proof. exact file_refuted. Qed.
Print Assumptions C28_threshold_file_refuted.

(** The flat-bed concentration, used at the boundaries, survives the end of the wind and grows by the acceleration factor. *)
Theorem C28_calm_flat_refuted : exists q g0 g1 c0 c1 c2 x y, good_t q /\ process_transport q = true /\ good_g g0 /\ good_g g1 /\
  equilibrium q Bagnold 1 g0 c0 = Ok c1 /\ gustar g1 = 0 /\ gustar0 g1 = 0 /\ equilibrium q Bagnold 1 g1 c1 = Ok c2 /\ Cu0 c1 = Fin x /\ Cu0 c2 = Fin y /\ 0 < x /\ x < y.
Proof. exact calm_refuted. Qed.
Print Assumptions C28_calm_flat_refuted.

(** Without shear the concentrations of the step are zero, but the flat-bed concentration is that of the step before times accfac. *)
Theorem C28_calm : forall q tr rows g c c' x, equilibrium q tr rows g c = Ok c' -> process_transport q = true -> gustar g = 0 -> Cu0 c = Fin x ->
  Cu c' = Fin 0 /\ Cuf c' = Fin 0 /\ Cu0 c' = Fin (x * accfac q).
Proof. exact calm_stmt. Qed.
Print Assumptions C28_calm.
Example C28_calm_case : exists c', equilibrium qdef Sauermann 3 (gcell 0 (2 / 10) (2 / 10)) {| Cu := Fin 1; Cuf := Fin 1; Cu0 := Fin 5 |} = Ok c'.
Proof. exact (ex_intro _ _ eq_refl). Qed.

(** The flat-bed concentration is the one the cell would have with the shear velocity and the threshold of the flat bed.
    Missing part: kawamura and lettau (C28_flat_refuted) and bagnold_gs, which uses those of the bed itself. *)
Theorem C28_flat_partial : forall q tr rows g c c1 c2, process_transport q = true -> tr <> Kawamura -> tr <> Lettau -> tr <> BagnoldGs -> gustar g <> 0 -> gu g <> 0 -> gustar0 g <> 0 ->
  equilibrium q tr rows g c = Ok c1 -> equilibrium q tr rows (on_flat g) c = Ok c2 -> Cu0 c1 = Cu c2.
Proof. exact flat_conc. Qed.
Print Assumptions C28_flat_partial.
Example C28_flat_partial_case : gustar (gcell (3 / 10) (2 / 10) (2 / 10)) <> 0 /\ gustar0 (gcell (3 / 10) (2 / 10) (2 / 10)) <> 0 /\
  exists c', equilibrium qdef Bagnold 1 (on_flat (gcell (3 / 10) (2 / 10) (2 / 10))) calm = Ok c'.
Proof. exact flat_ex. Qed.

(** With kawamura and lettau the flat-bed concentration is never computed and stays zero where sand moves over a flat bed. *)
Theorem C28_flat_refuted : forall tr, tr = Kawamura \/ tr = Lettau -> exists q g c c' x, good_t q /\ process_transport q = true /\ good_g g /\ gustar0 g = gustar g /\ guth0 g = guth g /\
  equilibrium q tr 1 g c = Ok c' /\ Cu c' = Fin x /\ 0 < x /\ Cu0 c' = Fin 0.
Proof. exact flat_refuted. Qed.
Print Assumptions C28_flat_refuted.

(** bagnold_gs does not run on a grid of more than one row. *)
Theorem C28_bagnold_gs_rows : forall q rows g c, process_transport q = true -> (rows <> 1)%nat -> equilibrium q BagnoldGs rows g c = Raise IndexError.
Proof. exact gs_raises. Qed.
Print Assumptions C28_bagnold_gs_rows.
Example C28_bagnold_gs_rows_case : process_transport qdef = true /\ (4 <> 1)%nat.
Proof. exact gs_ex. Qed.

(** Every formulation: a stronger wind carries at least as much. *)
Theorem C58_shear_velocity : forall q tr d us us' u th, good_t q -> 0 < d -> 0 < us -> us <= us' -> 0 < u -> good_th th ->
  ele (capacity q tr d us u th) (capacity q tr d us' u th).
Proof. exact capacity_us. Qed.
Print Assumptions C58_shear_velocity.
Example C58_shear_velocity_case : good_th (Fin (2 / 10)) /\ exists a b,
  capacity qdef Lettau (225 / 1000000) (3 / 10) 1 (Fin (2 / 10)) = Fin a /\ capacity qdef Lettau (225 / 1000000) (4 / 10) 1 (Fin (2 / 10)) = Fin b /\ a < b.
Proof. exact C58_ex2. Qed.

(** A higher threshold carries at most as much. Missing part: formulations kawamura and dk, for which it is false (below). *)
Theorem C58_threshold_partial : forall q tr d us u th th', good_t q -> 0 < d -> 0 < us -> 0 < u -> good_th th -> good_th th' -> ele th th' -> tr <> Dk -> tr <> Kawamura ->
  ele (capacity q tr d us u th') (capacity q tr d us u th).
Proof. exact capacity_th. Qed.
Print Assumptions C58_threshold_partial.
Example C58_threshold_partial_case : good_th (Fin (2 / 10)) /\ good_th (Fin (25 / 100)) /\ ele (Fin (2 / 10)) (Fin (25 / 100)) /\ exists a b,
  capacity qdef Bagnold (225 / 1000000) (3 / 10) 1 (Fin (2 / 10)) = Fin a /\ capacity qdef Bagnold (225 / 1000000) (3 / 10) 1 (Fin (25 / 100)) = Fin b /\ b < a.
Proof. exact C58_ex. Qed.

Theorem C58_kawamura_refuted : exists q d us u t t' a b, good_t q /\ 0 < d /\ 0 < u /\ 0 < t < t' /\ t' < us /\
  capacity q Kawamura d us u (Fin t) = Fin a /\ capacity q Kawamura d us u (Fin t') = Fin b /\ 0 < a < b.
Proof. exact kawamura_refuted. Qed.
Print Assumptions C58_kawamura_refuted.

Theorem C58_dk_refuted : exists q d us u t t' a b, good_t q /\ 0 < d /\ 0 < u /\ 0 < t < t' /\ t' < us /\
  capacity q Dk d us u (Fin t) = Fin a /\ capacity q Dk d us u (Fin t') = Fin b /\ 0 < a < b.
Proof. exact dk_mono_refuted. Qed.
Print Assumptions C58_dk_refuted.

(** Moisture raises the threshold. Missing part: the three formulations that replace it, for which it is false (below). *)
Theorem C29_raises_partial : forall p me x u, physical p -> raises me -> good_th u -> good_th (moisture1 p me x u) /\ ele u (moisture1 p me x u).
Proof. exact moisture1_good. Qed.
Print Assumptions C29_raises_partial.
Example C29_raises_partial_case : physical (mix (2 / 100) true "hotta") /\ raises Hotta /\ good_th (Fin (2 / 10)) /\
  moisture1 (mix (2 / 100) true "hotta") Hotta (121 / 10000 * 1590 / 1025) (Fin (2 / 10)) = Fin (2 / 10 + 75 / 10 * (121 / 10000)).
Proof. exact C29_ex. Qed.

(** The threshold grows with the moisture. Missing part: the three replacing formulations, and gregory_darwish with a low wilting point (C29_gregory_refuted). *)
Theorem C29_grows_partial : forall p me x y u, physical p -> raises me -> (me = GregoryDarwish -> 64 / 1000 <= 105 / 10 * w15 p) -> x <= y -> good_th u ->
  ele (moisture1 p me x u) (moisture1 p me y u).
Proof. exact moisture1_mono. Qed.
Print Assumptions C29_grows_partial.
Example C29_grows_partial_case : physical (mix (2 / 100) true "hotta") /\ raises Hotta /\ good_th (Fin (2 / 10)) /\
  moisture1 (mix (2 / 100) true "hotta") Hotta (121 / 10000 * 1590 / 1025) (Fin (2 / 10)) = Fin (2 / 10 + 75 / 10 * (121 / 10000)).
Proof. exact C29_ex. Qed.

(** Every formulation: very wet sand does not move. *)
Theorem C29_very_wet : forall p me x u, 64 / 1000 < mass_content p x -> moisture1 p me x u = PInf.
Proof. exact moisture1_wet. Qed.
Print Assumptions C29_very_wet.
Example C29_very_wet_case : moisture1 (mix (2 / 100) true "cornelis") Cornelis (1 / 10) (Fin 1) = PInf.
Proof. exact very_wet_ex. Qed.

Theorem C29_saleh_fryear_refuted : exists p x u, physical p /\ 0 < x /\ In u (grainsize p) /\ ~ ele u (moisture1 p SalehFryear x u).
Proof. exact saleh_refuted. Qed.
Print Assumptions C29_saleh_fryear_refuted.

Theorem C29_cornelis_refuted : exists p x u, physical p /\ 0 < x /\ In u (grainsize p) /\ ~ ele u (moisture1 p Cornelis x u).
Proof. exact cornelis_refuted. Qed.
Print Assumptions C29_cornelis_refuted.

Theorem C29_dong_2007_refuted : exists p x u, physical p /\ 0 < x /\ In u (grainsize p) /\ ~ ele u (moisture1 p Dong2007 x u).
Proof. exact dong_refuted. Qed.
Print Assumptions C29_dong_2007_refuted.

Theorem C29_gregory_refuted : exists p x y u, physical p /\ 0 < x < y /\ good_th u /\ ~ ele (moisture1 p GregoryDarwish x u) (moisture1 p GregoryDarwish y u).
Proof. exact gregory_refuted. Qed.
Print Assumptions C29_gregory_refuted.

(** One step: an infinite threshold at the layer, no change above it. Missing part: cells within 1 cm above the layer are treated as at
    the layer, the fluid threshold is not raised, and the history (below). *)
Theorem C30_non_erodible_partial : forall p p' c t t', th_nelayer p = true -> compute p c t = Ok t' -> same_but_ne p p' ->
  exists t0, compute p' c t = Ok t0 /\ length (uth t') = length (uth t0) /\ uth0 t' = uth0 t0 /\ uthf t' = uthf t0 /\
    (zb c <= ne c + 1 / 100 -> Forall (fun u => u = PInf) (uth t')) /\ (ne c + 1 / 100 < zb c -> uth t' = uth t0).
Proof. exact compute_ne. Qed.
Print Assumptions C30_non_erodible_partial.
Example C30_non_erodible_partial_case : compute (sand false false false true "") rock t00 = Ok {| uth := [PInf]; uth0 := [Fin u225]; uthf := [Fin u225] |}.
Proof. exact rock_compute. Qed.

(** An infinite threshold means no equilibrium concentration, in every formulation. *)
Theorem C30_no_transport : forall q tr rows g c c', good_t q -> 0 < accfac q -> process_transport q = true -> 0 <= gu g -> 0 <= gustar g -> 0 < gd g ->
  guth g = PInf -> equilibrium q tr rows g c = Ok c' -> Cu c' = Fin 0.
Proof. exact inf_no_transport. Qed.
Print Assumptions C30_no_transport.
Example C30_no_transport_case : exists c', equilibrium qdef Kawamura 3 {| gu := 1; gustar := 1; gustar0 := 1; guth := PInf; guthf := PInf; guth0 := Fin 0; gd := 1 / 1000 |} calm = Ok c'.
Proof. exact (ex_intro _ _ eq_refl). Qed.

Theorem C30_fluid_threshold_refuted : exists p c t t' q g k k' x, compute p c t = Ok t' /\ th_nelayer p = true /\ zb c <= ne c /\ uth t' = [guth g] /\ uthf t' = [guthf g] /\
  good_t q /\ process_transport q = true /\ equilibrium q Bagnold 1 g k = Ok k' /\ Cu k' = Fin 0 /\ Cuf k' = Fin x /\ 0 < x.
Proof. exact rock_fluid_refuted. Qed.
Print Assumptions C30_fluid_threshold_refuted.

Theorem C30_history_refuted : exists p rk br t t' t'', threshold_file p = true /\ th_nelayer p = true /\ uth t = [Fin (2 / 10)] /\ zb rk <= ne rk /\ compute p rk t = Ok t' /\
  ne br + 1 / 2 < zb br /\ compute p br t' = Ok t'' /\ uth t'' = [PInf].
Proof. exact history_refuted. Qed.
Print Assumptions C30_history_refuted.

(** The options that can be combined freely. Missing part: th_drylayer, th_humidity, and th_sheltering without a setting that is not among the defaults (below). *)
Theorem C59_options_partial : forall p c t, process_threshold p = true -> threshold_file p = false -> th_drylayer p = false -> th_humidity p = false ->
  (th_moisture p = true -> method_of (method_moist_threshold p) <> None) -> (th_sheltering p = true -> m p <> None) -> exists t', compute p c t = Ok t'.
Proof. exact options_ok. Qed.
Print Assumptions C59_options_partial.
Example C59_options_partial_case : process_threshold p60 = true /\ threshold_file p60 = false /\ th_grainsize p60 = true /\ (exists t', compute p60 wet_cell t00 = Ok t') /\
  compute (sand false false false true "") rock t00 = Ok {| uth := [PInf]; uth0 := [Fin u225]; uthf := [Fin u225] |}.
Proof. exact C61_ex. Qed.

Theorem C59_switch_refuted : exists p c t, physical p /\ surface c /\ process_threshold p = true /\ th_drylayer p = true /\ compute p c t = Raise NameError.
Proof. exact switch_refuted. Qed.
Print Assumptions C59_switch_refuted.

Theorem C59_drylayer_raises : forall p c t sh me mo hum, (mo = true -> method_of me <> None) -> compute (optioned p true hum sh me mo) c t = Raise NameError.
Proof. exact drylayer_raises. Qed.
Print Assumptions C59_drylayer_raises.
Example C59_drylayer_case : method_of "hotta" = Some Hotta.
Proof. exact eq_refl. Qed.

Theorem C59_humidity_raises : forall p c t sh me mo, (mo = true -> method_of me <> None) -> compute (optioned p false true sh me mo) c t = Raise NameError.
Proof. exact humidity_raises. Qed.
Print Assumptions C59_humidity_raises.
Example C59_humidity_case : method_of "belly_johnson" = Some Belly.
Proof. exact eq_refl. Qed.

Theorem C59_sheltering_raises : forall p c t me mo, m p = None -> (mo = true -> method_of me <> None) -> compute (optioned p false false true me mo) c t = Raise KeyError.
Proof. exact sheltering_raises. Qed.
Print Assumptions C59_sheltering_raises.
Example C59_sheltering_case : m (sand true false false false "shao") = None /\ method_of "shao" = Some Shao.
Proof. exact (conj eq_refl eq_refl). Qed.

(** A misspelt moisture method is reported as a missing key, not by the intended message. *)
Theorem C59_unknown_method_raises : forall p c t, process_threshold p = true -> threshold_file p = false -> th_moisture p = true -> method_moist p = false ->
  method_of (method_moist_threshold p) = None -> compute p c t = Raise KeyError.
Proof. exact unknown_raises. Qed.
Print Assumptions C59_unknown_method_raises.
Example C59_unknown_method_case : method_of (method_moist_threshold (sand true false false false "beley")) = None.
Proof. exact eq_refl. Qed.

(** All surface properties together only raise the threshold of clean dry sand. Missing part: the replacing moisture formulations (C29) and
    strong sheltering (below). *)
Theorem C60_only_raised_partial : forall p c t, physical p -> surface c -> 0 <= csalt p -> computes p ->
  (th_moisture p = true -> exists me, method_of (method_moist_threshold p) = Some me /\ raises me) ->
  (th_sheltering p = true -> exists mm, m p = Some mm /\ mild p mm) ->
  exists t', compute p c t = Ok t' /\ uth0 t' = map (fun d => Fin (Aa p * sqrt ((rhog p - rhoa p) / rhoa p * grav p * d))) (grain_size p) /\
    Forall2 (fun dry u => good_th u /\ ele dry u) (uth0 t') (uth t') /\ Forall2 (fun dry u => good_th u /\ ele dry u) (uth0 t') (uthf t').
Proof. exact compute_raise. Qed.
Print Assumptions C60_only_raised_partial.
Example C60_only_raised_partial_case : physical p60 /\ surface wet_cell /\ 0 <= csalt p60 /\ computes p60 /\
  (th_moisture p60 = true -> exists me, method_of (method_moist_threshold p60) = Some me /\ raises me) /\ (th_sheltering p60 = true -> exists mm, m p60 = Some mm /\ mild p60 mm).
Proof. exact C60_ex. Qed.

Theorem C60_sheltering_refuted : exists p c t t', physical p /\ surface c /\ computes p /\ th_moisture p = false /\ m p = Some 1 /\ compute p c t = Ok t' /\
  uth t' = [Fin 0] /\ exists u, uth0 t' = [Fin u] /\ 0 < u.
Proof. exact shelter_refuted. Qed.
Print Assumptions C60_sheltering_refuted.

(** The thresholds do not depend on those of the step before. Missing part: th_grainsize switched off (below) and a threshold file (C30_history_refuted). *)
Theorem C61_fresh_partial : forall p c t t', process_threshold p = true -> threshold_file p = false -> th_grainsize p = true -> compute p c t = compute p c t'.
Proof. exact compute_fresh. Qed.
Print Assumptions C61_fresh_partial.
Example C61_fresh_partial_case : process_threshold p60 = true /\ threshold_file p60 = false /\ th_grainsize p60 = true /\ (exists t', compute p60 wet_cell t00 = Ok t') /\
  compute (sand false false false true "") rock t00 = Ok {| uth := [PInf]; uth0 := [Fin u225]; uthf := [Fin u225] |}.
Proof. exact C61_ex. Qed.

Theorem C61_compound_refuted : exists p c t t' t'' x y, process_threshold p = true /\ threshold_file p = false /\ th_grainsize p = false /\ th_salt p = true /\
  compute p c t = Ok t' /\ compute p c t' = Ok t'' /\ uth t' = [Fin x] /\ uth t'' = [Fin y] /\ 0 < x < y.
Proof. exact compound_refuted. Qed.
Print Assumptions C61_compound_refuted.

(** The constant grain speed is 1 m/s along the shear, or along the wind where there is no shear. Missing part: Duran's formulation (below). *)
Theorem C62_constant_speed_partial : forall uw uws uwn us usn uv, uw = sqrt (uws * uws + uwn * uwn) -> uv = sqrt (us * us + usn * usn) ->
  let '(s, n, u) := constant_grainspeed uw uws uwn us usn uv in
  (0 < uv -> s * uv = us /\ n * uv = usn /\ u = 1) /\
  (uv = 0 -> 0 < uw -> s * uw = uws /\ n * uw = uwn /\ u = 1) /\
  (uv = 0 -> uw = 0 -> s = 0 /\ n = 0 /\ u = 0).
Proof. exact constant_dir. Qed.
Print Assumptions C62_constant_speed_partial.
Example C62_constant_speed_partial_case : let '(s, n, u) := constant_grainspeed 10 8 6 (3 / 10) (4 / 10) (5 / 10) in s = 6 / 10 /\ n = 8 / 10 /\ u = 1.
Proof. exact C62_ex. Qed.

(** Duran's formulation, inside a separation bubble: along the shear with 0.1 m/s, whatever the slope. *)
Theorem C62_bubble : forall q uth0 uw uws uwn ustar ustars ustarn dhs dhn, 5 / 100 <= ustar -> ustar = sqrt (ustars * ustars + ustarn * ustarn) ->
  let '(s, n, u) := duran_grainspeed q uth0 uw uws uwn ustar ustars ustarn dhs dhn true in s * ustar = 1 / 10 * ustars /\ n * ustar = 1 / 10 * ustarn /\ u = 1 / 10.
Proof. exact duran_bubble. Qed.
Print Assumptions C62_bubble.
Example C62_bubble_case : 5 / 100 <= 5 / 10 /\ 5 / 10 = sqrt (3 / 10 * (3 / 10) + 4 / 10 * (4 / 10)) /\
  duran_grainspeed ddef (2 / 10) 10 6 8 (5 / 10) (3 / 10) (4 / 10) (1 / 10) 0 true = (6 / 100, 8 / 100, 1 / 10).
Proof. exact bubble_ex. Qed.

(** Duran's formulation: below the threshold of the dry bed sand moves against the wind. *)
Theorem C62_duran_refuted : exists q uth0 uw ust us un u, good_d q /\ 0 < uw /\ 0 < ust < uth0 /\ duran_grainspeed q uth0 uw uw 0 ust ust 0 0 0 false = (us, un, u) /\ us < 0 /\ 0 < u.
Proof. exact duran_refuted. Qed.
Print Assumptions C62_duran_refuted.
