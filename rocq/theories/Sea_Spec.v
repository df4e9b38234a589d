(** What the water level and the waves should be: read from their files, or given by a coupled model. Nothing here uses the model of the interpolation. *)
From Coq Require Import ZArith.
From Verif Require Import Base Num Utils_Spec Hydro_Model Hydro_Spec Sea_Model.
Open Scope Q_scope.

(** [v] is what the series says at time [t]: on the line between two successive points, or the last value in the one second after the last point; the series is repeated after that second. *)
Definition reads (s : timeseries) (t v : Q) : Prop :=
  let final := last (snd s) (fst s) in
  exists k y, y == t + inject_Z k * (fst final - fst (fst s) + 1) /\
    ((exists pre a b post, fst s :: snd s = pre ++ a :: b :: post /\ fst a <= y <= fst b /\ on_line a b y v) \/ (fst final <= y < fst final + 1 /\ v == snd final)).
(** A file sorted in time. *)
Definition sorted_file (s : timeseries) : Prop := Utils_Spec.series (fst s :: snd s).
(** A mask as a factor and a term. *)
Definition masked (m : Q * Q) (v : Q) : Q := fst m * v + snd m.
(** The still water level, wave height and period of a cell at time [t]: as in the files, the height limited by the depth of the still water, then masked. *)
Definition follows_files (h : hydro) (t : Q) (c : cell) : Prop :=
  (process_tide h = true -> (forall s v, tide_file h = Some s -> reads s t v -> SWL c == masked (tide_mask c) v) /\ (tide_file h = None -> SWL c == masked (tide_mask c) 0)) /\
  (process_tide h = false -> SWL c == 0) /\
  (process_wave h = true -> forall s1 s2 height period, wave_file h = Some (s1, s2) -> reads s1 t height -> reads s2 t period ->
     Hs c == masked (wave_mask c) (qmin (gamma h * qmax 0 (SWL c - zb c)) height) /\ Tp c == masked (wave_mask c) period /\
     Hsmix c == masked (wave_mask c) (qmin (gamma h * qmax 0 (TWL c - zb c)) height)) /\
  (process_wave h = false \/ wave_file h = None -> Hs c == 0 /\ Tp c == 0).
(** Points of the grid; squared distance in rows and columns. *)
Definition on_grid (ny nx : nat) (p : nat * nat) : Prop := (fst p <= ny /\ snd p <= nx)%nat.
Definition distance2 (p q : nat * nat) : Z :=
  ((Z.of_nat (fst p) - Z.of_nat (fst q)) * (Z.of_nat (fst p) - Z.of_nat (fst q)) + (Z.of_nat (snd p) - Z.of_nat (snd q)) * (Z.of_nat (snd p) - Z.of_nat (snd q)))%Z.
(** [near] takes one of the nearest points. *)
Definition nearest (near : list (nat * nat) -> nat * nat -> nat * nat) : Prop :=
  forall l p, l <> [] -> In (near l p) l /\ forall q, In q l -> (distance2 (near l p) p <= distance2 q p)%Z.
(** There is water on the cell. *)
Definition wet (eps : Q) (c : cell) : Prop := 2 * eps < zs c - zb c.
(** No mask on the grid. *)
Definition no_tide_mask (ny nx : nat) (g : cells) : Prop := forall i j, on_grid ny nx (i, j) -> unmasked (tide_mask (g i j)).
Definition no_wave_mask (ny nx : nat) (g : cells) : Prop := forall i j, on_grid ny nx (i, j) -> unmasked (wave_mask (g i j)).
