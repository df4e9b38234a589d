(** The documented threshold and transport rate (docs/user/model.rst, "Shear velocity threshold" and "Advection Scheme"). *)
From Coq Require Import Reals String List.
From Verif Require Import Base Ext Threshold_Model.
Import ListNotations.
Open Scope R_scope.

(** The threshold of Bagnold for grains of size [d] (equation shear). *)
Definition doc_grain (p : params) (d : R) : R := Aa p * sqrt ((rhog p - rhoa p) / rhoa p * grav p * d).
(** Mass content of water, as a fraction of the dry mass (equation vol-water). *)
Definition doc_content (p : params) (moist : R) : R := moist * rhow p / (rhog p * (1 - porosity p)).
(** Factor for moisture after Belly, with the mass content in percent (equation apx-moist); below 0.005 there is no effect. *)
Definition doc_moist (pg : R) : R := if Rlt_dec pg (5 / 1000) then 1 else Rmax 1 (18 / 10 + 6 / 10 * (ln (100 * pg) / ln 10)).
(** Factor for salt, in mg/g (equation salt-rough). *)
Definition doc_salt (mg_per_g : R) : R := 103 / 100 * exp (1027 / 10000 * mg_per_g).
(** Factor for roughness elements with a share [w] of the mass (equation shear-rough). *)
Definition doc_rough (p : params) (mm w : R) : R := sqrt ((1 - mm * w) * (1 + mm * beta p / sigma p * w)).
(** The mass of the fractions whose threshold is not below the shear velocity. *)
Fixpoint unmoved (ustar : R) (ths mass : list R) : R :=
  match ths, mass with
  | t :: ths', x :: mass' => (if Rlt_dec t ustar then 0 else x) + unmoved ustar ths' mass'
  | _, _ => 0
  end.
(** The threshold without roughness elements, and the share of the mass that they make up. *)
Definition doc_bare (p : params) (c : cell) (d : R) : R :=
  doc_moist (doc_content p (moist c)) * doc_salt (1000 * (csalt p * (1 - salt c))) * doc_grain p d.
Definition doc_share (p : params) (c : cell) : R := unmoved (ustar c) (map (doc_bare p c) (grain_size p)) (mass c) / fold_right Rplus 0 (mass c).
(** The threshold of all factors together (equation apx-shearvelocity); infinite above a mass content of 0.064. *)
Definition doc_threshold (p : params) (mm : R) (c : cell) (d : R) : ext :=
  if Rlt_dec (64 / 1000) (doc_content p (moist c)) then PInf else Fin (doc_rough p mm (doc_share p c) * doc_bare p c d).
(** All factors are switched on, the moisture after Belly. *)
Definition all_factors (p : params) : Prop := process_threshold p = true /\ threshold_file p = false /\ th_grainsize p = true /\ th_moisture p = true /\
  method_moist_threshold p = "belly_johnson"%string /\ th_drylayer p = false /\ th_humidity p = false /\ th_salt p = true /\ th_sheltering p = true /\ th_nelayer p = false.
(** Roughness parameters for which the factor is a number above zero. *)
Definition sheltered (p : params) (mm : R) (c : cell) : Prop := 0 <= mm < 1 /\ 0 < sigma p /\ 0 <= beta p /\ Forall (fun x => 0 <= x) (mass c) /\ 0 < fold_right Rplus 0 (mass c).

(** The documented transport rate (equation equilibrum-transport) for wind and threshold speeds at height [z]; [z0] is the height at which
    the profile reaches zero, [kappa] the constant of Von Karman. *)
Definition doc_alpha (kappa z z0 : R) : R := kappa / ln (z / z0) * (kappa / ln (z / z0)) * (kappa / ln (z / z0)).
Definition doc_rate (kappa z z0 C rhoa g d D uz uth : R) : R :=
  Rmax 0 (doc_alpha kappa z z0 * C * (rhoa / g) * sqrt (d / D) * ((uz - uth) * (uz - uth) * (uz - uth))).
(** The law of the wall: the shear velocity of a wind [uz] at height [z]. *)
Definition law_of_the_wall (kappa z z0 uz : R) : R := kappa * uz / ln (z / z0).

(** The same cell without water. *)
Definition dried (c : cell) : cell :=
  {| moist := 0; zb := zb c; zs := zs c; salt := salt c; ustar := ustar c; mass := mass c; mask := mask c; ne := ne c |}.
(** The same cell with another value of the state variable salt, "[-] Salt content" (constants.py:144), as a user may set it. *)
Definition with_salt (c : cell) (s : R) : cell :=
  {| moist := moist c; zb := zb c; zs := zs c; salt := s; ustar := ustar c; mass := mass c; mask := mask c; ne := ne c |}.
