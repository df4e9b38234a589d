(** What the water level and groundwater properties say. *)
From Coq Require Import ZArith.
From Verif Require Import Base Num Hydro_Model Utils_Spec.
Open Scope Q_scope.

Definition unmasked (m : Q * Q) : Prop := fst m == 1 /\ snd m == 0.
Definition nonneg_series (s : timeseries) : Prop := 0 <= snd (fst s) /\ forall p, In p (snd s) -> 0 <= snd p.
(** Depth of the water on the bed. *)
Definition depth (c : cell) : Q := zs c - zb c.

(** Rows of n cells. *)
Definition row_shaped (n : nat) (r : gwrow) : Prop := length (gx r) = n /\ length (gds r) = n /\ length (gzb r) = n /\ length (gmask r) = n.
Definition levels_shaped (n : nat) (l : levels) : Prop := length (dswl l) = n /\ length (twl l) = n.
Definition rows_shaped (n : nat) (rows : list gwrow) : Prop := Forall (row_shaped n) rows.
Definition all_levels_shaped (n m : nat) (lv : nat -> list levels) : Prop := forall i, length (lv i) = m /\ Forall (levels_shaped n) (lv i).
Definition field_shaped (n m : nat) (f : list (list Q)) : Prop := length f = m /\ Forall (fun r => length r = n) f.
(** The shoreline: the last cell before the first dry one. It is at index i >= 1 and the cells up to it are wet. *)
Definition shoreline_at (i : nat) (r : gwrow) (l : levels) : Prop :=
  (forall j z s, (j <= i)%nat -> nth_error (gzb r) j = Some z -> nth_error (dswl l) j = Some s -> z <= s) /\
  exists z s, nth_error (gzb r) (S i) = Some z /\ nth_error (dswl l) (S i) = Some s /\ s < z.
(** In every sub-step every row has a shoreline not in its first cell. *)
Definition shorelines_inside (rows : list gwrow) (lv : nat -> list levels) (steps : nat) : Prop :=
  forall i k r l, (i < steps)%nat -> nth_error rows k = Some r -> nth_error (lv i) k = Some l -> exists j, (1 <= j)%nat /\ shoreline_at j r l.
Definition submerged (r : gwrow) (l : levels) : Prop := forall j z s, nth_error (gzb r) j = Some z -> nth_error (dswl l) j = Some s -> z <= s.
(** The first or the second cell is dry. *)
Definition dry_at (j : nat) (r : gwrow) (l : levels) : Prop := exists z s, nth_error (gzb r) j = Some z /\ nth_error (dswl l) j = Some s /\ s < z.
(** All levels are h. *)
Definition level (h : Q) (l : list Q) : Prop := forall x, In x l -> x == h.
Definition same_list (l m : list Q) : Prop := Forall2 Qeq l m.
Definition even_spacing (d : Q) (x : list Q) : Prop := forall i a b, nth_error x i = Some a -> nth_error x (S i) = Some b -> b == a + d.

(** A wave file is sorted in time and has no negative wave heights. *)
Definition proper_waves (h : hydro) : Prop :=
  match wave_file h with Some (s, _) => Utils_Spec.series (fst s :: snd s) /\ nonneg_series s | None => True end.
(** All values of the series are between lo and hi. *)
Definition values_within (lo hi : Q) (s : timeseries) : Prop := within lo hi (map snd (fst s :: snd s)).
(** Only transect k of the grid. *)
Definition only_transect (k : nat) (lv : nat -> list levels) : nat -> list levels := fun i => match nth_error (lv i) k with Some l => [l] | None => [] end.
(** The value in row i, cell j. *)
Definition at_cell {A} (i j : nat) (f : list (list A)) (v : A) : Prop := exists row, nth_error f i = Some row /\ nth_error row j = Some v.
(** Cell j of row i is the shoreline of row i or of the row before (of the last one for i = 0), or one of the last three cells. *)
Definition boundary_cell (n i j : nat) (rows : list gwrow) (lvs : list levels) : Prop :=
  (n <= j + 3)%nat \/ exists q r l, (q = i \/ S q = i \/ (i = O /\ S q = length rows)) /\ nth_error rows q = Some r /\ nth_error lvs q = Some l /\ shoreline_at j r l.
(** Nothing but the sea and the landward boundary drives the groundwater, and both are at level h; cells of equal size e. *)
Definition at_rest (g : gwcfg) (h e : Q) (rows : list gwrow) (lv : nat -> list levels) : Prop :=
  seepage g = false /\ waves g = false /\ (static g = true -> GW_stat g == h) /\ ~ e == 0 /\
  Forall (fun r => Forall unmasked (gmask r) /\ level e (gds r)) rows /\ forall i, Forall (fun l => level h (dswl l)) (lv i).
(** Runup and set-up are not negative (C39 for the formula that is used). *)
Definition runup_nonneg (h : hydro) : Prop := forall height period, 0 <= fst (fst (stockdon h height period)) /\ 0 <= snd (stockdon h height period).
