(** Model of the water level and the waves with a coupled model: /repo/aeolis/hydro.py:67-104, 108-139, 143-177 and 182-211 ([interpolate]) with 'zs', 'Hs' or 'Tp' in external_vars (constants.py:223).
    Exact rationals instead of doubles; a grid of cells of Hydro_Model.v. *)
From Coq Require Import ZArith.
From Verif Require Import Base Num Utils_Model Hydro_Model.
Open Scope Q_scope.

(** Which variables are in external_vars. *)
Record coupling := { zs_ext : bool; Hs_ext : bool; Tp_ext : bool }.
(** The grid: rows and columns of cells. *)
Definition cells : Type := nat -> nat -> cell.
(** The cell with another still water level; with other waves. *)
Definition with_level (v : Q) (c : cell) : cell :=
  {| zb := zb c; tide_mask := tide_mask c; wave_mask := wave_mask c; runup_mask := runup_mask c; SWL := v; Hs := Hs c; Tp := Tp c; R := R c; eta := eta c; TWL := TWL c; DSWL := DSWL c; Hsmix := Hsmix c; zs := zs c |}.
Definition with_waves (h p : Q) (c : cell) : cell :=
  {| zb := zb c; tide_mask := tide_mask c; wave_mask := wave_mask c; runup_mask := runup_mask c; SWL := SWL c; Hs := h; Tp := p; R := R c; eta := eta c; TWL := TWL c; DSWL := DSWL c; Hsmix := Hsmix c; zs := zs c |}.
Section Sea.
  (** [near wet p]: which of the points [wet] scipy's NearestNDInterpolator takes for the point [p] (row and column as coordinates). *)
  Context (h : hydro) (x : coupling) (near : list (nat * nat) -> nat * nat -> nat * nat) (ny nx : nat) (eps : Q).
  (** All rows and columns. *)
  Definition positions : list (nat * nat) := flat_map (fun i => map (pair i) (seq 0 (S nx))) (seq 0 (S ny)).
  (** hydro.py:85-86: the water level of the coupled model with the mask; [apply_mask] works on the array of 'zs' itself, so line 89 sees the mask. *)
  Definition imposed (g : cells) (p : nat * nat) : Q := mask_value (tide_mask (g (fst p) (snd p))) (zs (g (fst p) (snd p))).
  (** hydro.py:89-91: cells that are wet. *)
  Definition wet_cells (g : cells) : list (nat * nat) := filter (fun p => Qltb (2 * eps) (imposed g p - zb (g (fst p) (snd p)))) positions.
  (** hydro.py:67-104. None: no wet cell, so there is nothing to interpolate from (what scipy does then is not modelled). *)
  Definition level_step (t : Q) (g : cells) : option cells :=
    if process_tide h then
      if zs_ext x then match wet_cells g with [] => None | wet => Some (fun i j => with_level (imposed g (near wet (i, j))) (g i j)) end
      else Some (fun i j => with_level (still_level h t (g i j)) (g i j))
    else Some (fun i j => with_level 0 (g i j)).
  (** hydro.py:108-139 *)
  Definition wave_step (t : Q) (g : cells) : cells := fun i j => let c := g i j in
    if negb (Hs_ext x) && negb (Tp_ext x) then with_waves (wave_height h t (SWL c) c) (wave_period h t c) c
    else with_waves (mask_value (wave_mask c) (Hs c)) (mask_value (wave_mask c) (Tp c)) c.
  (** hydro.py:166-177: runup of each cell for coupled waves; the set-up is not computed. *)
  Definition runup_each (c : cell) : cell :=
    let '(_, _, r) := stockdon h (Hs c) (Tp c) in
    let r' := mask_value (runup_mask c) r in
    {| zb := zb c; tide_mask := tide_mask c; wave_mask := wave_mask c; runup_mask := runup_mask c; SWL := SWL c; Hs := Hs c; Tp := Tp c;
       R := r'; eta := mask_value (runup_mask c) (eta c); TWL := SWL c + r'; DSWL := SWL c; Hsmix := Hsmix c; zs := zs c |}.
  (** hydro.py:143-177 *)
  Definition runup_step (g : cells) : cells := fun i j =>
    if process_runup h then if Hs_ext x then runup_each (g i j) else run_up h (g i 0%nat) (g i j) else g i j.
  (** hydro.py:44-213 *)
  Definition interpolate_coupled (t : Q) (g : cells) : option cells :=
    match level_step t g with None => None | Some g1 => let g3 := runup_step (wave_step t g1) in Some (fun i j => finish h t (g3 i j)) end.
  (** Time steps between two exchanges with the coupled model: nothing else touches these variables or the bed. *)
  Fixpoint steps_coupled (ts : list Q) (g : cells) : option cells :=
    match ts with [] => Some g | t :: r => match interpolate_coupled t g with None => None | Some g' => steps_coupled r g' end end.
End Sea.
