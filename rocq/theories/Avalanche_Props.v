(** Property theorems about avalanching: C34, C57. *)
From Verif Require Import Base Avalanche_Model Avalanche_Spec Avalanche_Proofs Avalanche_Cases.
From Coq Require Import Reals.
Open Scope R_scope.

(** C34. Sand that slides onto the border of the grid is lost. *)
Theorem C34_lost_refuted : exists ny nx ds dn zne ts tdy n zb, (forall j i, 0 < ds j i /\ 0 < dn j i /\ zne j i <= zb j i) /\ tdy <= ts /\
  total ny nx (avalanche true ny nx ds dn zne ts tdy n zb) < total ny nx zb.
Proof. exact c34_lost. Qed.
Print Assumptions C34_lost_refuted.
(** On a grid with cells of different size, volume is created away from the border. *)
Theorem C34_created_refuted : exists ny nx ds dn zne ts tdy n zb, (forall j i, (j < ny)%nat -> (i < nx)%nat -> 0 < ds j i /\ 0 < dn j i /\ zne j i <= zb j i) /\ tdy <= ts /\
  total ny nx (fun j i => zb j i * (ds j i * dn j i)) <
  total ny nx (fun j i => avalanche true ny nx ds dn zne ts tdy n zb j i * (ds j i * dn j i)).
Proof. exact c34_created. Qed.
Print Assumptions C34_created_refuted.
(** A bed without slopes over the static angle is unchanged. *)
Theorem C34_stable : forall process ny nx ds dn zne ts tdy n zb, (0 < ny)%nat -> (0 < nx)%nat -> 0 <= tan (deg2rad ts) ->
  stable ny nx zb ds dn (fun s => s <= tan (deg2rad ts)) -> avalanche process ny nx ds dn zne ts tdy n zb = zb.
Proof. exact ava_stable. Qed.
Print Assumptions C34_stable.
Example C34_stable_ex : (0 < 1)%nat /\ (0 < 3)%nat /\ 0 <= tan (deg2rad 45) /\ stable 1 3 (row [0; 1; 1 / 2]) ones ones (fun s => s <= tan (deg2rad 45)).
Proof. exact c34_stable_case. Qed.
(** The border never changes. *)
Theorem C34_border : forall process ny nx ds dn zne ts tdy n zb j i, on_border ny nx j i -> avalanche process ny nx ds dn zne ts tdy n zb j i = zb j i.
Proof. exact ava_border. Qed.
Print Assumptions C34_border.
(** A steep bed is relaxed until all slopes are below the dynamic angle or the number of passes is exhausted, not longer. *)
Theorem C34_stops : forall process ny nx ds dn zne ts tdy n zb, let zb' := avalanche process ny nx ds dn zne ts tdy n zb in
  process = true -> (exists j i, (j < ny)%nat /\ (i < nx)%nat /\ ~ on_border ny nx j i /\ tan (deg2rad ts) < slope ny zb ds dn j i) ->
  exists k, (k <= n)%nat /\ zb' = Nat.iter k (relax ny nx ds dn zne (tan (deg2rad tdy))) zb /\
    (k = n \/ stable ny nx zb' ds dn (fun s => s < tan (deg2rad tdy))) /\
    (forall m, (m < k)%nat -> ~ stable ny nx (Nat.iter m (relax ny nx ds dn zne (tan (deg2rad tdy))) zb) ds dn (fun s => s < tan (deg2rad tdy)) \/ tan (deg2rad tdy) <= 0).
Proof. exact ava_stops. Qed.
Print Assumptions C34_stops.
Example C34_stops_ex : exists j i, (j < 1)%nat /\ (i < 3)%nat /\ ~ on_border 1 3 j i /\ tan (deg2rad 45) < slope 1 (row [0; 10; 0]) ones ones j i.
Proof. exact c34_stops_case. Qed.
(** The sum of the bed levels never grows, and is conserved as long as no cell next to the border gets steep. *)
Theorem C34_total_partial : forall process ny nx ds dn zne ts tdy n zb, total ny nx (avalanche process ny nx ds dn zne ts tdy n zb) <= total ny nx zb.
Proof. exact ava_total. Qed.
Print Assumptions C34_total_partial.
Theorem C34_conserved_partial : forall process ny nx ds dn zne ts tdy n zb, 0 <= tan (deg2rad tdy) ->
  (forall k, (k < n)%nat -> forall j i j' i', (j < ny)%nat -> (i < nx)%nat -> ~ on_border ny nx j i -> on_border ny nx j' i' -> adjacent j i j' i' ->
     0 < ds j i /\ zne j i <= Nat.iter k (relax ny nx ds dn zne (tan (deg2rad tdy))) zb j i /\
     slope ny (Nat.iter k (relax ny nx ds dn zne (tan (deg2rad tdy))) zb) ds dn j i <= tan (deg2rad tdy)) ->
  total ny nx (avalanche process ny nx ds dn zne ts tdy n zb) = total ny nx zb.
Proof. exact ava_conserves. Qed.
Print Assumptions C34_conserved_partial.
Example C34_conserved_ex : 0 <= tan (deg2rad 45) /\
  (forall k, (k < 1)%nat -> forall j i j' i', (j < 1)%nat -> (i < 7)%nat -> ~ on_border 1 7 j i -> on_border 1 7 j' i' -> adjacent j i j' i' ->
     0 < ones j i /\ zeros j i <= Nat.iter k (relax 1 7 ones ones zeros (tan (deg2rad 45))) (row [0; 0; 0; 10; 0; 0; 0]) j i /\
     slope 1 (Nat.iter k (relax 1 7 ones ones zeros (tan (deg2rad 45))) (row [0; 0; 0; 10; 0; 0; 0])) ones ones j i <= tan (deg2rad 45)).
Proof. exact c34_conserved_case. Qed.

(** C57. Avalanching erodes the non-erodible layer. *)
Theorem C57_uncovered_refuted : exists ny nx ds dn zne ts tdy n zb j i, (forall j i, 1 <= ds j i /\ 1 <= dn j i /\ zne j i <= zb j i) /\ tdy < ts /\
  zne j i < zb j i /\ avalanche true ny nx ds dn zne ts tdy n zb j i < zne j i.
Proof. exact c57_uncovered. Qed.
Print Assumptions C57_uncovered_refuted.
(** In one pass the layer stays covered where the remaining sand limits the flux, or where the cell is not steep. *)
Theorem C57_limited_partial : forall ny nx ds dn zne td zb j i, (j < ny)%nat -> (i < nx)%nat -> 0 <= td -> 3 / 10 <= ds j i -> zne j i <= zb j i ->
  (zb j i - zne j i) / ds j i < slope ny zb ds dn j i - td \/ slope ny zb ds dn j i <= td ->
  zne j i <= relax ny nx ds dn zne td zb j i.
Proof. exact relax_limited. Qed.
Print Assumptions C57_limited_partial.
Example C57_limited_ex : (0 < 1)%nat /\ (1 < 3)%nat /\ 0 <= 1 / 2 /\ 3 / 10 <= ones 0%nat 1%nat /\ row [0; 5; 0] 0%nat 1%nat <= row [0; 6; 0] 0%nat 1%nat /\
  (row [0; 6; 0] 0%nat 1%nat - row [0; 5; 0] 0%nat 1%nat) / ones 0%nat 1%nat < slope 1 (row [0; 6; 0]) ones ones 0 1 - 1 / 2.
Proof. exact c57_limited_case. Qed.
(** The bed is lowered by at most 0.3 m per pass, so a cell covered by that much sand per allowed pass stays covered. *)
Theorem C57_depth_partial : forall process ny nx ds dn zne ts tdy n zb j i, 0 <= tan (deg2rad tdy) ->
  zb j i - 3 / 10 * INR n <= avalanche process ny nx ds dn zne ts tdy n zb j i.
Proof. exact ava_lower. Qed.
Print Assumptions C57_depth_partial.
