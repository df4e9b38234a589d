(** The flow of groundwater: properties C189, C190 and C193. *)
From Verif Require Import Base Num Hydro_Model Hydro_Spec Flow_Spec Flow_Proofs Flow_Cases Flow_Swash Flow_Swash_Cases.
From Coq Require Import ZArith QArith List.
Import ListNotations.
Open Scope Q_scope.

(** C189, what is computed: the rate of change for a table of given level, slope and curvature. *)
Theorem C189_computed : forall g shl j other dswl ds zb gw gw' r e eta s c, boussinesq g (Z.of_nat shl) other dswl ds zb gw = Ok (gw', r) -> inner_cell (length gw) shl j e ds -> curved e eta s c gw' j ->
  nth j r 0 == K_gw g / ne_gw g * (D_gw g * c + s * (8 * eta + 6 * c * (e * e)) / e).
Proof. exact rise_computed. Qed.
Print Assumptions C189_computed.
Example C189_computed_case : exists gw' r, flows aquifer 1 (sloping 1 1) = Ok (gw', r) /\ inner_cell 12 1 5 1 (cells 1) /\ curved 1 (21 # 20) (1 # 100) 0 gw' 5 /\ nth 5 r 0 == 28 # 100000.
Proof. exact c189_case. Qed.

(** C189 at a crest or trough at the datum: the documented rate.  Full statement: for every level and slope; false, see C189_boussinesq_refuted. *)
Theorem C189_crest_partial : forall g shl j other dswl ds zb gw gw' r e c, boussinesq g (Z.of_nat shl) other dswl ds zb gw = Ok (gw', r) -> inner_cell (length gw) shl j e ds -> curved e 0 0 c gw' j ->
  nth j r 0 == documented_rise g 0 0 c.
Proof. exact rise_crest. Qed.
Print Assumptions C189_crest_partial.
Example C189_crest_partial_case : exists gw' r, flows aquifer 1 mound = Ok (gw', r) /\ curved 1 0 0 (- (2 # 100)) gw' 5 /\ nth 5 r 0 == - (2 # 3000).
Proof. exact c189_crest_case. Qed.

(** C189, on a grid with half the spacing a straight sloping table rises twice as fast: the rate of change has no limit for fine grids. *)
Theorem C189_grid : forall g shl j other dswl ds zb gw gw' r e shl2 j2 other2 dswl2 ds2 zb2 gw2 gw2' r2 e2 eta s, boussinesq g (Z.of_nat shl) other dswl ds zb gw = Ok (gw', r) -> inner_cell (length gw) shl j e ds -> curved e eta s 0 gw' j ->
  boussinesq g (Z.of_nat shl2) other2 dswl2 ds2 zb2 gw2 = Ok (gw2', r2) -> inner_cell (length gw2) shl2 j2 e2 ds2 -> curved e2 eta s 0 gw2' j2 ->
  nth j2 r2 0 * e2 == nth j r 0 * e.
Proof. exact rise_grid. Qed.
Print Assumptions C189_grid.
Example C189_grid_case : exists gw' r gw2' r2, flows aquifer 1 (sloping 1 1) = Ok (gw', r) /\ flows aquifer (1 # 2) (sloping (41 # 40) (1 # 2)) = Ok (gw2', r2) /\
  curved 1 (21 # 20) (1 # 100) 0 gw' 5 /\ curved (1 # 2) (21 # 20) (1 # 100) 0 gw2' 5 /\ nth 5 r2 0 == 2 * nth 5 r 0.
Proof. exact c189_grid_case. Qed.

(** C189 is false: with a slope of 1:100 and cells of 1 m the groundwater rises more than 800 times as fast as by the documented equation. *)
Theorem C189_boussinesq_refuted : exists g other dswl ds zb gw gw' r, boussinesq g 1 other dswl ds zb gw = Ok (gw', r) /\ inner_cell (length gw) 1 5 1 ds /\ curved 1 (21 # 20) (1 # 100) 0 gw' 5 /\
  0 < documented_rise g (21 # 20) (1 # 100) 0 /\ 800 * documented_rise g (21 # 20) (1 # 100) 0 < nth 5 r 0.
Proof. exact c189_refuted. Qed.
Print Assumptions C189_boussinesq_refuted.

(** C190, what a change of the datum does: the documented rate does not change, the computed one does unless the curvature is eight times the slope over the cell size. *)
Theorem C190_shift : forall g d shl j other dswl ds zb gw gw' r other2 dswl2 zb2 gw2 gw2' r2 e eta s c, boussinesq g (Z.of_nat shl) other dswl ds zb gw = Ok (gw', r) -> inner_cell (length gw) shl j e ds -> curved e eta s c gw' j ->
  boussinesq (lower_datum d g) (Z.of_nat shl) other2 dswl2 ds zb2 gw2 = Ok (gw2', r2) -> length gw2 = length gw -> curved e (eta + d) s c gw2' j ->
  nth j r2 0 - nth j r 0 == K_gw g / ne_gw g * d * (8 * s / e - c) /\ documented_rise (lower_datum d g) (eta + d) s c == documented_rise g eta s c.
Proof. exact rise_datum. Qed.
Print Assumptions C190_shift.
Example C190_shift_case : exists gw' r gw2' r2, flows aquifer 1 (sloping 1 1) = Ok (gw', r) /\ flows (lower_datum 1 aquifer) 1 (sloping 2 1) = Ok (gw2', r2) /\
  curved 1 (21 # 20) (1 # 100) 0 gw' 5 /\ curved 1 ((21 # 20) + 1) (1 # 100) 0 gw2' 5.
Proof. exact c190_case. Qed.

(** C190 is false: with all levels measured from a datum 1 m lower, the groundwater rises almost twice as fast. *)
Theorem C190_datum_refuted : exists g d other dswl ds zb gw gw' r r2 gw2', d == 1 /\ boussinesq g 1 other dswl ds zb gw = Ok (gw', r) /\ 
  boussinesq (lower_datum d g) 1 other (map (Qplus d) dswl) ds (map (Qplus d) zb) (map (Qplus d) gw) = Ok (gw2', r2) /\ same_list gw2' (map (Qplus d) gw') /\ 0 < nth 5 r 0 /\ (19 # 10) * nth 5 r 0 < nth 5 r2 0.
Proof. exact c190_refuted. Qed.
Print Assumptions C190_datum_refuted.

(** C193, what is computed: in a sub-step of any length, and whatever the conductivity and the porosity, runup raises the groundwater by the coefficient times the documented share (except in the column of the peak, where the share is one). *)
Theorem C193_added : forall g dt o row lv gw a1 w1 a0 w0 j v1 v0 d s r, swash_zone row lv d s r -> substep (with_waves true g) dt o row lv gw = Ok (a1, w1) -> substep (with_waves false g) dt o row lv gw = Ok (a0, w0) ->
  free_cell row lv w1 j v1 -> free_cell row lv w0 j v0 ->
  ~ peak_cell s r j -> (j < length (gx row))%nat ->
  v1 - v0 == Cl_gw g * swash_share (nth s (gx row) 0) (nth r (gx row) 0) (nth j (gx row) 0).
Proof. exact swash_added. Qed.
Print Assumptions C193_added.
Example C193_added_case : exists a1 w1 a0 w0 v1 v0, swash_step true 60 = Ok (a1, w1) /\ swash_step false 60 = Ok (a0, w0) /\ free_cell swash_row swash_levels w1 3 v1 /\ free_cell swash_row swash_levels w0 3 v0 /\
  swash_zone swash_row swash_levels 1 2 5 /\ ~ peak_cell 2 5 3 /\ v1 - v0 == 1 # 20.
Proof. exact c193_case. Qed.

(** C193 is false: in a sub-step of one second the groundwater rises by runup 299 times as much as documented, with a conductivity of 1 mm/s. *)
Theorem C193_rate_refuted : exists g o row lv gw a1 w1 a0 w0 j v1 v0 d s r, swash_zone row lv d s r /\ ~ peak_cell s r j /\ substep (with_waves true g) 1 o row lv gw = Ok (a1, w1) /\ substep (with_waves false g) 1 o row lv gw = Ok (a0, w0) /\
  free_cell row lv w1 j v1 /\ free_cell row lv w0 j v0 /\ 0 < documented_swash g 1 (swash_share (nth s (gx row) 0) (nth r (gx row) 0) (nth j (gx row) 0)) /\
  299 * documented_swash g 1 (swash_share (nth s (gx row) 0) (nth r (gx row) 0) (nth j (gx row) 0)) < v1 - v0.
Proof. exact c193_refuted. Qed.
Print Assumptions C193_rate_refuted.
