(** Grain speed and slope of the bed: properties C173 and C174. *)
From Verif Require Import Base Threshold_Model Threshold_Spec Threshold_Cases Grain_Model Grain_Spec Grain_Proofs Grain_Cases.
From Coq Require Import Reals.

Open Scope R_scope.

(** C173. Outside separation bubbles the grains lag behind the air by the fall velocity over the root of 2 alpha, in the direction of the air corrected for the slope. *)
Theorem C173_lag : forall q ny nx x y z th a i j us un u, good_d q -> 0 < uw (a i j) -> 0 < th i j -> bubble (a i j) = false -> grain_speeds q ny nx x y z th a i j = (us, un, u) ->
  ((exists w, settles q w) /\ (exists es en, along (a i j) es en) /\ exists v, felt q (th i j) (ustar (a i j)) v) /\
  forall w v es en fs fn, settles q w -> along (a i j) es en -> felt q (th i j) (ustar (a i j)) v -> fs = es + 2 * d_alpha q * slope_s ny nx z x i j -> fn = en + 2 * d_alpha q * slope_n ny z y i j -> fs * fs + fn * fn <> 0 ->
    lags q w fs fn (v * es - us) (v * en - un) /\ u * u = us * us + un * un /\ 0 <= u.
Proof. exact grain_lags. Qed.
Print Assumptions C173_lag.
Example C173_lag_case : good_d ddef /\ 0 < uw (breeze 1 2) /\ bubble (breeze 1 2) = false /\ along (breeze 1 2) (6 / 10) (8 / 10) /\ slope_s 3 3 hill xs 1%nat 2%nat = 1 / 10 /\ slope_n 3 hill ys 1%nat 2%nat = - (1 / 20) /\
  (forall fs, fs = 6 / 10 + 2 * d_alpha ddef * slope_s 3 3 hill xs 1%nat 2%nat -> 0 < fs) /\ exists us un u, grain_speeds ddef 3 3 xs ys hill (fun _ _ => 2 / 10) breeze 1 2 = (us, un, u).
Proof. exact c173_case. Qed.

(** C173. On a flat bed they move along the air. *)
Theorem C173_flat : forall q ny nx x y z px py h th a i j us un u, good_d q -> 0 < uw (a i j) -> 0 < th i j -> bubble (a i j) = false -> (2 <= ny)%nat -> (2 <= nx)%nat -> straight ny nx x y px py -> sloping ny nx x y z h 0 0 -> (i <= ny)%nat -> (j <= nx)%nat ->
  grain_speeds q ny nx x y z th a i j = (us, un, u) -> forall w v es en, settles q w -> along (a i j) es en -> felt q (th i j) (ustar (a i j)) v -> es * es + en * en = 1 ->
  us = (v - w / sqrt (2 * d_alpha q)) * es /\ un = (v - w / sqrt (2 * d_alpha q)) * en.
Proof. exact flat_speed. Qed.
Print Assumptions C173_flat.
Example C173_flat_case : good_d ddef /\ straight 3 3 xs ys (fun j => INR j) (fun i => 2 * INR i) /\ sloping 3 3 xs ys (fun _ _ => 2) 2 0 0 /\ along (breeze 1 2) (6 / 10) (8 / 10) /\ 6 / 10 * (6 / 10) + 8 / 10 * (8 / 10) = 1.
Proof. exact c173_flat_case. Qed.

(** C174. On a grid along the axes with at least three rows and columns the slopes of a plane bed are exact everywhere, the edges included. *)
Theorem C174_plane : forall ny nx x y z px py a b c i j, (2 <= ny)%nat -> (2 <= nx)%nat -> straight ny nx x y px py -> sloping ny nx x y z a b c -> (i <= ny)%nat -> (j <= nx)%nat -> slope_s ny nx z x i j = b /\ slope_n ny z y i j = c.
Proof. exact slopes_exact. Qed.
Print Assumptions C174_plane.
Example C174_plane_case : (2 <= 3)%nat /\ straight 3 3 xs ys (fun j => INR j) (fun i => 2 * INR i) /\ sloping 3 3 xs ys hill 3 (1 / 10) (- (1 / 20)) /\ hill 0 0 <> hill 0 1 /\ hill 0 0 <> hill 1 0.
Proof. exact c174_case. Qed.

(** C174. On a transect they are exact in the inner cells. *)
Theorem C174_transect : forall nx x y z px py a b c j, straight 0%nat nx x y px py -> sloping 0%nat nx x y z a b c -> (1 <= j)%nat -> (j < nx)%nat -> slope_s 0%nat nx z x 0%nat j = b /\ slope_n 0%nat z y 0%nat j = 0.
Proof. exact slopes_row. Qed.
Print Assumptions C174_transect.
Example C174_transect_case : straight 0 3 xs ys (fun j => INR j) (fun i => 2 * INR i) /\ sloping 0 3 xs ys hill 3 (1 / 10) (- (1 / 20)).
Proof. exact c174_row_case. Qed.

(** C174. The first and the last cell of a transect are taken as level. *)
Theorem C174_ends_refuted : exists nx x y z px py a b c, (2 <= nx)%nat /\ straight 0 nx x y px py /\ sloping 0 nx x y z a b c /\ b = 1 / 10 /\ slope_s 0 nx z x 0%nat 0%nat = 0 /\ slope_s 0 nx z x 0%nat nx = 0.
Proof. exact c174_ends. Qed.
Print Assumptions C174_ends_refuted.

(** C174. With two rows the alongshore slope is taken as zero. *)
Theorem C174_two_rows_refuted : exists nx x y z px py a b c, (2 <= nx)%nat /\ straight 1 nx x y px py /\ sloping 1 nx x y z a b c /\ c = - (1 / 20) /\ forall i j, (i <= 1)%nat -> slope_n 1 z y i j = 0.
Proof. exact c174_two_rows. Qed.
Print Assumptions C174_two_rows_refuted.

(** C174. On a turned grid the slope along a row is not the rise per metre along the row. *)
Theorem C174_turned_refuted : exists ny nx x y z, (2 <= ny)%nat /\ (2 <= nx)%nat /\ (forall i j, (x i (S j) - x i j) * (x i (S j) - x i j) + (y i (S j) - y i j) * (y i (S j) - y i j) = 1) /\
  (forall i j, (x i (S j) - x i j) * (x (S i) j - x i j) + (y i (S j) - y i j) * (y (S i) j - y i j) = 0) /\ (forall i j, z i (S j) - z i j = 3 / 5) /\ forall i j, (i <= ny)%nat -> (j <= nx)%nat -> slope_s ny nx z x i j = 1.
Proof. exact c174_turned. Qed.
Print Assumptions C174_turned_refuted.
