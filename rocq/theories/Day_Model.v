(** Model of whole time steps with waves and with everything that acts back on the wind: /repo/aeolis/model.py:241-354 [update].
    In the order of the code: mixing of the top layers by waves (297, bed.py:121-190), then, if there is wind (300), the transport and the
    bed update (Run_Model), then whatever changes only the bed level: avalanching (323-325), reset of the wet bed (328), dune erosion with
    avalanching (334-338). The waves, the wind and the equilibrium concentrations of a step, and how the bed is reshaped, may depend in any
    way on all states so far (shear over the bed, fences, vegetation, moisture, thresholds: 272-290, 293-294, 301-304, 341-343): they are an
    arbitrary function of the history. The length of the time step is the same in all steps. Exact rationals. *)
From Verif Require Import Base Num Utils_Model Bed_Model Solver_Model Run_Model.
Open Scope Q_scope.

(** What a step brings: height of the waves that mix the bed per cell (s['Hsmix']), the wind, if any, and the new bed levels as a function of those after the bed update. *)
Record day := { heights : nat -> Q; blow : option (list wind); reshape : (nat -> Q) -> nat -> Q }.
(** process_mixtoplayer, facDOD and s['thlyr'] per cell. *)
Record mixing := { mixes : bool; depth : Q; thick : nat -> list Q }.
(** s['zb'] of a cell. *)
Definition height (cs : list bedcell) (j : nat) : Q := match nth_error cs j with Some c => zb c | None => 0 end.
Definition with_sand (s : state) (cs : list bedcell) : state := {| air := air s; sand := cs; oldCu := oldCu s; oldCuf := oldCuf s; oldw := oldw s |}.
(** bed.py:121-190 for all cells of a state. *)
Definition stirred (nf : nat) (m : mixing) (hs : nat -> Q) (cs : list bedcell) : list bedcell :=
  map2 (fun c l => {| Bed_Model.mass := l; Bed_Model.pickup := Bed_Model.pickup c; zb := zb c; zs := zs c |}) cs
    (mixtoplayer (mixes m) nf (depth m) (map (fun jc => {| thlyr := thick m (fst jc); mixmass := Bed_Model.mass (snd jc); hsmix := hs (fst jc) |}) (combine (seq 0 (length cs)) cs))).
(** The bed levels are replaced, the layers stay as they are. *)
Definition reshaped (f : (nat -> Q) -> nat -> Q) (cs : list bedcell) : list bedcell :=
  map (fun jc => {| Bed_Model.mass := Bed_Model.mass (snd jc); Bed_Model.pickup := Bed_Model.pickup (snd jc); zb := f (height cs) (fst jc); zs := zs (snd jc) |}) (combine (seq 0 (length cs)) cs).
(** What is noted of a step: winds and outcomes of the solver (none without wind), and by how much the bed was reshaped. *)
Record diary := { winds : list wind; results : list outcome; lifted : nat -> Q }.
Definition whole_step (sp : (nat -> nat -> Q) -> (nat -> Q) -> nat -> Q) (k : cfg) (e : setup) (m : mixing) (t0 : bool) (s : state) (d : day) : result (option (state * diary)) :=
  let s1 := with_sand s (stirred (length (grains e)) m (heights d) (sand s)) in
  let finish s2 ws os := (with_sand s2 (reshaped (reshape d) (sand s2)), {| winds := ws; results := os; lifted := fun j => reshape d (height (sand s2)) j - height (sand s2) j |}) in
  match blow d with
  | None => Ok (Some (finish s1 [] []))
  | Some ws => let* r := step sp k e t0 s1 ws in Ok (match r with None => None | Some (s2, os) => Some (finish s2 ws os) end)
  end.
(** [n] steps; the climate sees all states so far, the present one first. *)
Fixpoint days (sp : (nat -> nat -> Q) -> (nat -> Q) -> nat -> Q) (k : cfg) (e : setup) (m : mixing) (climate : list state -> day) (n : nat) (t0 : bool) (past : list state) (s : state)
  : result (option (state * list diary)) :=
  match n with
  | O => Ok (Some (s, []))
  | S n =>
    let* r := whole_step sp k e m t0 s (climate (s :: past)) in
    match r with
    | None => Ok None
    | Some (s1, d) => let* r := days sp k e m climate n false (s :: past) s1 in Ok (match r with None => None | Some (s', t) => Some (s', d :: t) end)
    end
  end.
