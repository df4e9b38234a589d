(** What thresholds, transport capacity and grain speed should be. *)
From Coq Require Import Reals String.
From Verif Require Import Base Ext Threshold_Model.
Open Scope R_scope.

(** A threshold is a non-negative number or infinite. *)
Definition good_th (th : ext) : Prop := th = PInf \/ exists t, th = Fin t /\ 0 <= t.
(** Positive constants of the transport formulations. *)
Definition good_t (q : tparams) : Prop := 0 < Cb q /\ 0 < Ck q /\ 0 < Cl q /\ 0 < Cdk q /\ 0 < trhoa q /\ 0 < tg q.
(** Speeds are not negative and grains have a size. *)
Definition good_g (g : grain) : Prop := 0 <= gu g /\ 0 <= gustar g /\ 0 < gd g /\ good_th (guth g).
(** Physical constants. *)
Definition physical (p : params) : Prop :=
  0 < Aa p /\ 0 < rhoa p /\ rhoa p < rhog p /\ 0 < rhow p /\ 0 < grav p /\ porosity p < 1 /\ 0 < w15 p /\ 0 <= resw_moist p /\
  Forall (fun d => 0 < d) (grain_size p) /\ 0 < mean_size p.
(** The moisture formulations that modify the threshold of the dry bed; the others replace it. *)
Definition raises (me : method) : Prop := match me with SalehFryear | Cornelis | Dong2007 => False | _ => True end.
(** The roughness elements shelter more sand than they concentrate shear on. *)
Definition mild (p : params) (mm : R) : Prop := 0 <= mm /\ 0 < sigma p /\ 0 < beta p /\ mm <= 1 - sigma p / beta p.
(** A bed surface: some sediment, a salt content between 0 and 1, a mask that multiplies by at least 1 and adds nothing negative. *)
Definition surface (c : cell) : Prop :=
  Forall (fun x => 0 <= x) (mass c) /\ 0 < rsuml (mass c) /\ salt c <= 1 /\ 1 <= fst (mask c) /\ 0 <= snd (mask c).
(** The threshold is computed, starting from the grain size. *)
Definition computes (p : params) : Prop :=
  process_threshold p = true /\ threshold_file p = false /\ th_grainsize p = true /\ th_drylayer p = false /\ th_humidity p = false.
(** The same options without the non-erodible layer. *)
Definition same_but_ne (p p' : params) : Prop :=
  p' = {| Aa := Aa p; rhog := rhog p; rhoa := rhoa p; rhow := rhow p; grav := grav p; porosity := porosity p; w15 := w15 p; resw_moist := resw_moist p;
    eps := eps p; csalt := csalt p; beta := beta p; sigma := sigma p; grain_size := grain_size p; grain_dist := grain_dist p; m := m p;
    method_moist := method_moist p; process_threshold := process_threshold p; threshold_file := threshold_file p; th_grainsize := th_grainsize p;
    th_moisture := th_moisture p; th_drylayer := th_drylayer p; th_humidity := th_humidity p; th_salt := th_salt p; th_sheltering := th_sheltering p;
    th_nelayer := false; process_tide := process_tide p; method_moist_threshold := method_moist_threshold p |}.
(** Positive constants of Duran's formulation. *)
Definition good_d (q : dparams) : Prop := 0 < dAa q /\ 0 < drhoa q /\ drhoa q < drhog q /\ 0 < dg q /\ 0 < dv q /\ 0 < dkappa q /\ 0 < dsize q.
(** Some threshold options switched on or off. *)
Definition optioned (p : params) (dry hum sh : bool) (me : string) (mo : bool) : params :=
  {| Aa := Aa p; rhog := rhog p; rhoa := rhoa p; rhow := rhow p; grav := grav p; porosity := porosity p; w15 := w15 p; resw_moist := resw_moist p;
    eps := eps p; csalt := csalt p; beta := beta p; sigma := sigma p; grain_size := grain_size p; grain_dist := grain_dist p; m := m p;
    method_moist := method_moist p; process_threshold := true; threshold_file := false; th_grainsize := th_grainsize p;
    th_moisture := mo; th_drylayer := dry; th_humidity := hum; th_salt := th_salt p; th_sheltering := sh;
    th_nelayer := th_nelayer p; process_tide := process_tide p; method_moist_threshold := me |}.
