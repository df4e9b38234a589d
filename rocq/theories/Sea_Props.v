(** Water level and waves from their files or from a coupled model: properties C171 and C172. *)
From Verif Require Import Base Num Utils_Model Utils_Spec Hydro_Model Hydro_Spec Hydro_Cases Sea_Model Sea_Spec Sea_Proofs Sea_Cases.
From Coq Require Import QArith ZArith List.
Import ListNotations.
Open Scope Q_scope.

(** C171. In every cell the still water level, the wave height and the wave period are what their files say at that time, limited by the depth and masked; and the files say something at all times. *)
Theorem C171_files : forall h t row c, (forall s, tide_file h = Some s -> sorted_file s) -> (forall s1 s2, wave_file h = Some (s1, s2) -> sorted_file s1 /\ sorted_file s2) -> In c (interpolate h t row) ->
  follows_files h t c /\ (forall s, tide_file h = Some s -> exists v, reads s t v) /\ (forall s1 s2, wave_file h = Some (s1, s2) -> (exists v, reads s1 t v) /\ exists v, reads s2 t v).
Proof. exact files_all. Qed.
Print Assumptions C171_files.
Example C171_files_case : (forall s, tide_file tidal2 = Some s -> sorted_file s) /\ (forall s1 s2, wave_file tidal2 = Some (s1, s2) -> sorted_file s1 /\ sorted_file s2) /\
  reads ((0, 0), [(3600, 1); (7200, 0)]) 1800 (1 # 2) /\ reads ((0, 8), [(599, 9)]) 1800 8 /\
  map (fun c => (Qred (SWL c), Qred (Hs c), Qred (Tp c))) (interpolate tidal2 1800 [plain (-4) (1, 0); plain (-1) (1, 0); plain (-1) (1 # 2, 1); plain 2 (1, 0)]) = [(1 # 2, 1, 8); (1 # 2, 3 # 4, 8); (1 # 2, 11 # 8, 5); (1 # 2, 0, 8)].
Proof. exact c171_case. Qed.

(** C171. Without coupled variables the model of the coupling is that of the files, row by row. *)
Theorem C171_uncoupled : forall h near ny nx eps t g, exists g', interpolate_coupled h {| zs_ext := false; Hs_ext := false; Tp_ext := false |} near ny nx eps t g = Some g' /\
  forall i, map (g' i) (seq 0 (S nx)) = interpolate h t (map (g i) (seq 0 (S nx))).
Proof. exact uncoupled_row. Qed.
Print Assumptions C171_uncoupled.
Example C171_uncoupled_case : exists c, interpolate tidal2 1800 [plain (-4) (1, 0)] = [c] /\ SWL c == 1 # 2.
Proof. exact c172_row_case. Qed.

(** C172. A water level from a coupled model is used as given in wet cells; a dry cell gets that of a nearest wet cell. *)
Theorem C172_level : forall h x near ny nx eps t g, nearest near -> process_tide h = true -> zs_ext x = true -> 0 <= eps -> no_tide_mask ny nx g ->
  ((exists p, on_grid ny nx p /\ wet eps (g (fst p) (snd p))) -> exists g', interpolate_coupled h x near ny nx eps t g = Some g') /\
  forall g' i j, interpolate_coupled h x near ny nx eps t g = Some g' -> on_grid ny nx (i, j) -> zb (g' i j) = zb (g i j) /\ (wet eps (g i j) -> SWL (g' i j) == zs (g i j) /\ zs (g' i j) == zs (g i j)) /\
    exists p, on_grid ny nx p /\ wet eps (g (fst p) (snd p)) /\ (forall q, on_grid ny nx q -> wet eps (g (fst q) (snd q)) -> (distance2 p (i, j) <= distance2 q (i, j))%Z) /\ SWL (g' i j) == zs (g (fst p) (snd p)) /\ zs (g' i j) == qmax (zb (g i j)) (SWL (g' i j)).
Proof. exact coupled_first. Qed.
Print Assumptions C172_level.
Example C172_level_case : nearest closest_of /\ no_tide_mask 0 5 (beach (1, 0)) /\ no_wave_mask 0 5 (beach (1, 0)) /\ wet (1 # 1000) (beach (1, 0) 0%nat 5%nat) /\ on_grid 0 5 (0%nat, 5%nat) /\
  levels_of 6 (interpolate_coupled still exchange closest_of 0 5 (1 # 1000) 0 (beach (1, 0))) =
    [(5, 5, 2, 28 # 5); (5, 5, 2, 28 # 5); (5, 5, 2, 28 # 5); (1, 10, 2, 8 # 5); (1, 10, 2, 8 # 5); (1, 1, 2, 8 # 5)].
Proof. exact c172_case. Qed.

(** C172. In cells that are wet at the exchange it is held until the next exchange. The full statement has all cells, and masks: missing, see below. *)
Theorem C172_held_partial : forall h x near ny nx eps ts g g' i j, nearest near -> process_tide h = true -> zs_ext x = true -> 0 <= eps -> no_tide_mask ny nx g -> steps_coupled h x near ny nx eps ts g = Some g' -> ts <> [] -> on_grid ny nx (i, j) -> wet eps (g i j) -> SWL (g' i j) == zs (g i j) /\ zs (g' i j) == zs (g i j).
Proof. exact coupled_held. Qed.
Print Assumptions C172_held_partial.
Example C172_held_partial_case : no_tide_mask 0 5 (beach (1, 0)) /\ wet (1 # 1000) (beach (1, 0) 0%nat 0%nat) /\ on_grid 0 5 (0%nat, 0%nat) /\ exists g', steps_coupled still exchange closest_of 0 5 (1 # 1000) [0; 60] (beach (1, 0)) = Some g'.
Proof. exact c172_steps_case. Qed.

(** C172. Wave height and period of a coupled model are held until the next exchange where there is no mask. *)
Theorem C172_waves : forall h x near ny nx eps ts, forall g g' i j, (Hs_ext x = true \/ Tp_ext x = true) -> no_wave_mask ny nx g -> steps_coupled h x near ny nx eps ts g = Some g' -> on_grid ny nx (i, j) -> Hs (g' i j) == Hs (g i j) /\ Tp (g' i j) == Tp (g i j).
Proof. exact coupled_waves. Qed.
Print Assumptions C172_waves.
Example C172_waves_case : no_tide_mask 0 5 (beach (1, 0)) /\ wet (1 # 1000) (beach (1, 0) 0%nat 0%nat) /\ on_grid 0 5 (0%nat, 0%nat) /\ exists g', steps_coupled still exchange closest_of 0 5 (1 # 1000) [0; 60] (beach (1, 0)) = Some g'.
Proof. exact c172_steps_case. Qed.

(** C172. The runup is computed in each cell from the waves of that cell. *)
Theorem C172_runup : forall h x near ny nx eps t g g' i j, Hs_ext x = true -> process_runup h = true -> interpolate_coupled h x near ny nx eps t g = Some g' ->
  R (g' i j) == masked (runup_mask (g i j)) (snd (stockdon h (Hs (g' i j)) (Tp (g' i j)))) /\ TWL (g' i j) == SWL (g' i j) + R (g' i j) /\ DSWL (g' i j) == SWL (g' i j).
Proof. exact coupled_runup. Qed.
Print Assumptions C172_runup.
Example C172_runup_case : no_tide_mask 0 5 (beach (1, 0)) /\ wet (1 # 1000) (beach (1, 0) 0%nat 0%nat) /\ on_grid 0 5 (0%nat, 0%nat) /\ exists g', steps_coupled still exchange closest_of 0 5 (1 # 1000) [0; 60] (beach (1, 0)) = Some g'.
Proof. exact c172_steps_case. Qed.

(** C172. A mask is applied again in every step. *)
Theorem C172_mask_refuted : exists h x near ny nx eps t t' g g1 g2 i j, nearest near /\ on_grid ny nx (i, j) /\ Hs_ext x = true /\ Tp_ext x = true /\ interpolate_coupled h x near ny nx eps t g = Some g1 /\ interpolate_coupled h x near ny nx eps t' g1 = Some g2 /\
  Hs (g i j) == 2 /\ wave_mask (g i j) = (1 # 2, 0) /\ Hs (g1 i j) == 1 /\ Hs (g2 i j) == 1 # 2 /\ SWL (g1 i j) == 5 # 2 /\ SWL (g2 i j) == 5 # 4.
Proof. exact c172_mask. Qed.
Print Assumptions C172_mask_refuted.

(** C172. The still water level of a dry cell changes between two exchanges. *)
Theorem C172_dry_refuted : exists h x near ny nx eps t t' g g1 g2 i j, nearest near /\ on_grid ny nx (i, j) /\ no_tide_mask ny nx g /\ zs_ext x = true /\ interpolate_coupled h x near ny nx eps t g = Some g1 /\ interpolate_coupled h x near ny nx eps t' g1 = Some g2 /\
  SWL (g1 i j) == 1 /\ SWL (g2 i j) == 5.
Proof. exact c172_dry. Qed.
Print Assumptions C172_dry_refuted.

(** C172. With 'Tp' from a coupled model but not 'Hs' the wave heights in the file are not used. *)
Theorem C172_period_refuted : exists h x near ny nx eps t g g' i j s v, nearest near /\ on_grid ny nx (i, j) /\ process_wave h = true /\ Hs_ext x = false /\ Tp_ext x = true /\ zs_ext x = false /\ wave_file h = Some s /\ reads (fst s) t v /\ 0 < v /\
  unmasked (wave_mask (g i j)) /\ interpolate_coupled h x near ny nx eps t g = Some g' /\ zb (g' i j) < SWL (g' i j) /\ Hs (g i j) == 0 /\ Hs (g' i j) == 0.
Proof. exact c172_period. Qed.
Print Assumptions C172_period_refuted.
