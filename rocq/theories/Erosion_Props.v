(** Properties C45, C92, C93, C95: dune erosion. *)
From Verif Require Import Base Num Utils_Model Erosion_Model Erosion_Spec Erosion_Cases.
From Coq Require Import QArith.
Open Scope Q_scope.

(** In every row the bed is only lowered, from the cell nearest to the toe in elevation to a scarp, to a line rising from the toe; elsewhere it stays. *)
Theorem C45_lowers : forall cdf nx p tide wave t rs rs', run_ph12 cdf nx p tide wave t rs = Ok rs' ->
  Forall2 (fun r r' => (forall j, zb r' j <= zb r j) /\ exists s e, nearest nx (toe p) (zb r) s /\ scarped nx p r r' s e) rs rs'.
Proof. exact c45_lowers. Qed.
Print Assumptions C45_lowers.
Example C45_lowers_case : levels 8 (run_ph12 half 7 storm tide1 waves1 10 [dune]) = [[0; 1; 2; 29 # 10; 1527 # 500; 6; 6; 6]] /\ levels 8 (run_ph12 half 7 storm tide1 waves1 10 [dune]) <> [].
Proof. exact c45_case. Qed.

(** Only cells above the toe are lowered, and not below it. *)
Theorem C45_above_toe : forall cdf nx p tide wave t rs rs', run_ph12 cdf nx p tide wave t rs = Ok rs' -> 0 <= slope p ->
  Forall2 (fun r r' => increasing nx (x r) -> forall j, (j <= nx)%nat -> zb r' j < zb r j -> toe p <= zb r' j) rs rs'.
Proof. exact c45_above. Qed.
Print Assumptions C45_above_toe.
Example C45_above_toe_case : increasing 7 (x dune) /\ 0 <= slope storm /\ levels 8 (run_ph12 half 7 storm tide1 waves1 10 [dune]) = [[0; 1; 2; 29 # 10; 1527 # 500; 6; 6; 6]].
Proof. exact c45_above_case. Qed.

(** Nothing happens when the total water level is at most that of the toe. *)
Theorem C45_calm : forall cdf nx p tide wave t rs, Forall (fun r => runup r * (126 # 100) + interp_circular t (fst tide) (snd tide) <= toe p) rs -> run_ph12 cdf nx p tide wave t rs = Ok rs.
Proof. exact c45_calm. Qed.
Print Assumptions C45_calm.
Example C45_calm_case : Forall (fun r => runup r * (126 # 100) + interp_circular 10 (fst tide1) (snd tide1) <= 4) [dune] /\ exists r', erode half 7 storm 0 10 dune = Ok r' /\ zb r' 4%nat < zb dune 4%nat.
Proof. exact c45_calm_case. Qed.

(** Nor in a single row for which it is. *)
Theorem C45_calm_row : forall cdf nx p tide wave t rs rs' k r r', run_ph12 cdf nx p tide wave t rs = Ok rs' -> nth_error rs k = Some r -> nth_error rs' k = Some r' ->
  runup r * (126 # 100) + interp_circular t (fst tide) (snd tide) <= toe p -> r' = r.
Proof. exact c45_rows. Qed.
Print Assumptions C45_calm_row.
Example C45_calm_row_case : Forall (fun r => runup r * (126 # 100) + interp_circular 10 (fst tide1) (snd tide1) <= 4) [dune] /\ exists r', erode half 7 storm 0 10 dune = Ok r' /\ zb r' 4%nat < zb dune 4%nat.
Proof. exact c45_calm_case. Qed.

(** A valley behind the dune at the level of the toe protects the dune: the land behind the valley is eroded instead. *)
Theorem C45_behind_refuted : exists nx p r r' i k, Cs p = Some 1 /\ increasing nx (x r) /\ erode half nx p 0 10 r = Ok r' /\ (i < k)%nat /\ (k <= nx)%nat /\
  (forall j, (j < i)%nat -> zb r j < toe p) /\ toe p < zb r i /\ (forall j, (j < k)%nat -> zb r' j == zb r j) /\ zb r' k < zb r k.
Proof. exact c45_behind. Qed.
Print Assumptions C45_behind_refuted.

(** The volume removed from a row is at most what waves erode plus what lies above the toe in the first cell. *)
Theorem C92_bound : forall cdf nx p wl Tp r r', distribution cdf -> sensible p -> 0 < Tp -> erode cdf nx p wl Tp r = Ok r' ->
  exists s, nearest nx (toe p) (zb r) s /\
  let d := qabs (x r 1%nat - x r 0%nat) in sand nx d (zb r) - sand nx d (zb r') <= (if Qltb (toe p) (runup r * (126 # 100) + wl) then demand cdf p wl Tp r + d * qmax 0 (zb r s - toe p) else 0).
Proof. exact c92_bound. Qed.
Print Assumptions C92_bound.
Example C92_bound_case : distribution half /\ sensible storm /\ exists r', erode half 7 storm 0 10 dune = Ok r' /\ toe storm < runup dune * (126 # 100) + 0.
Proof. exact c92_case. Qed.

(** The scarp is where the volume above the line comes nearest to what waves erode. *)
Theorem C92_nearest : forall cdf nx p wl Tp r r', distribution cdf -> sensible p -> 0 < Tp -> erode cdf nx p wl Tp r = Ok r' -> toe p < runup r * (126 # 100) + wl ->
  exists s e, nearest nx (toe p) (zb r) s /\ scarped nx p r r' s e /\ forall k, (s <= k <= nx)%nat -> qabs (above p r s e - demand cdf p wl Tp r) <= qabs (above p r s k - demand cdf p wl Tp r).
Proof. exact c92_nearest. Qed.
Print Assumptions C92_nearest.
Example C92_nearest_case : distribution half /\ sensible storm /\ exists r', erode half 7 storm 0 10 dune = Ok r' /\ toe storm < runup dune * (126 # 100) + 0.
Proof. exact c92_case. Qed.

(** More than the waves erode is removed. *)
Theorem C92_excess_refuted : exists p r r', sensible p /\ increasing 7 (x r) /\ erode half 7 p 0 10 r = Ok r' /\ (3 # 2) * demand half p 0 10 r < sand 7 1 (zb r) - sand 7 1 (zb r').
Proof. exact c92_excess. Qed.
Print Assumptions C92_excess_refuted.

(** And it is not put anywhere. *)
Theorem C92_lost_refuted : exists p r r', sensible p /\ increasing 7 (x r) /\ erode half 7 p 0 10 r = Ok r' /\ (forall j, zb r' j <= zb r j) /\ sand 7 1 (zb r') < sand 7 1 (zb r).
Proof. exact c92_lost. Qed.
Print Assumptions C92_lost_refuted.

(** Higher runup, a longer step, a larger coefficient and shorter waves erode at least as much in every cell. *)
Theorem C93_stronger : forall cdf nx p wl Tp Tp' r c c' d d' R r1 r2, distribution cdf -> 0 <= c <= c' -> 0 <= d <= d' -> 0 < Tp' <= Tp -> runup r <= R ->
  erode cdf nx (with_storm p c d) wl Tp r = Ok r1 -> erode cdf nx (with_storm p c' d') wl Tp' (with_runup r R) = Ok r2 -> forall j, zb r2 j <= zb r1 j.
Proof. exact c93_stronger. Qed.
Print Assumptions C93_stronger.
Example C93_stronger_case : distribution half /\ 0 < 10 <= 10 /\ runup dune <= 4 /\
  levels 8 (run_ph12 half 7 (with_storm storm 1 36) tide1 waves1 10 [dune]) = [[0; 1; 2; 29 # 10; 1527 # 500; 6; 6; 6]] /\
  levels 8 (run_ph12 half 7 (with_storm storm 2 36) tide1 waves1 10 [with_runup dune 4]) = [[0; 1; 2; 29 # 10; 1527 # 500; 777 # 250; 1581 # 500; 6]].
Proof. exact c93_case. Qed.

(** With the coefficient Cs and swash in all rows a step completes. *)
Theorem C95_completes : forall cdf nx p tide wave t rs c, Cs p = Some c -> Forall (fun r => 0 < sigma_s r) rs -> exists rs', run_ph12 cdf nx p tide wave t rs = Ok rs' /\ length rs' = length rs.
Proof. exact c95_completes. Qed.
Print Assumptions C95_completes.
Example C95_completes_case : Cs storm = Some 1 /\ Forall (fun r => 0 < sigma_s r) [dune].
Proof. exact c95_completes_case. Qed.

(** Cs has no default: without it there is a KeyError when water reaches a dune. *)
Theorem C95_no_coefficient_raises : forall cdf nx p tide wave t rs r, Cs p = None -> In r rs -> toe p < runup r * (126 # 100) + interp_circular t (fst tide) (snd tide) -> run_ph12 cdf nx p tide wave t rs = Raise KeyError.
Proof. exact c95_default. Qed.
Print Assumptions C95_no_coefficient_raises.
Example C95_no_coefficient_raises_case : In dune [dune] /\ toe storm < runup dune * (126 # 100) + interp_circular 10 (fst tide1) (snd tide1).
Proof. exact c95_default_case. Qed.

(** Without swash, as when the process of runup is off, there is a ValueError. *)
Theorem C95_no_swash_raises : forall cdf nx p tide wave t rs r c, Cs p = Some c -> In r rs -> (forall r, In r rs -> sigma_s r == 0) -> toe p < runup r * (126 # 100) + interp_circular t (fst tide) (snd tide) -> run_ph12 cdf nx p tide wave t rs = Raise ValueError.
Proof. exact c95_still. Qed.
Print Assumptions C95_no_swash_raises.
Example C95_no_swash_raises_case : let r := {| x := x dune; zb := zb dune; runup := 0; setup := 0; sigma_s := 0 |} in sigma_s r == 0 /\ toe storm < runup r * (126 # 100) + interp_circular 10 (0, 4) [(1000, 4)].
Proof. exact c95_still_case. Qed.

(** So that default settings fail. *)
Theorem C95_default_refuted : exists p tide wave t rs, sensible p /\ run_ph12 half 7 p tide wave t rs = Raise KeyError.
Proof. exact c95_refuted. Qed.
Print Assumptions C95_default_refuted.
