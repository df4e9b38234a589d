(** Model of whole time steps and runs: /repo/aeolis/model.py:241-354 [update] as far as the air and the bed exchange sand, that is compute_weights (1102), the solver
    'trunk' (1066-1454) and bed.update (bed.py:223-322), with the results of one step as the input of the next. The equilibrium concentrations and the wind of a step are
    given. Left out: mixing by waves, avalanching, reset of the wet bed, vegetation, dune erosion, fences (all of them processes that can be switched off), and the length of the
    time step, which is the same in all steps (euler_backward without a limit). Exact rationals. *)
From Verif Require Import Base Num Utils_Model Bed_Model Solver_Model.
Open Scope Q_scope.

(** What the wind does to one fraction during one step: speed of the grains and equilibrium concentrations, as flat vectors. *)
Record wind := { speed : flow; wCu : nat -> Q; wCuf : nat -> Q; wCu0 : nat -> Q }.
(** Between the steps: concentrations per fraction, cells of the bed, and of the step before the equilibrium concentrations and the weights
    (self.l, model.py:270). *)
Record state := { air : list (nat -> Q); sand : list bedcell; oldCu : list (nat -> Q); oldCuf : list (nat -> Q); oldw : nat -> list Q }.

(** s['mass'][:,:,0,:] of a cell. *)
Definition top_layer (s : state) (j : nat) : list Q := match nth_error (sand s) j with Some c => hd [] (Bed_Model.mass c) | None => [] end.
(** model.py:1318-1322 *)
Definition saturation (s : state) (ws : list wind) (j : nat) : Q :=
  qsum (map2 (fun a w => if Qltb 0 (wCu w j) then a j / wCu w j else 0) (air s) ws).
(** What the solver reads for fraction [i]. *)
Definition reads (s : state) (ws : list wind) (i : nat) (w : wind) : flow * input :=
  (speed w, {| Cu := wCu w; Cuf := wCuf w; Cu0 := wCu0 w; mass := fun j => nth i (top_layer s j) 0; lCt := nth i (air s) (fun _ => 0);
     lCu := nth i (oldCu s) (fun _ => 0); lCuf := nth i (oldCuf s) (fun _ => 0); lw := fun j => nth i (oldw s j) 0; sat := saturation s ws |}).
Definition all_reads (s : state) (ws : list wind) : list (flow * input) := map2 (reads s ws) (seq 0 (length ws)) ws.
(** model.py:1102, transport.py:371-402 *)
Definition weights_now (bi : Q) (s : state) (ws : list wind) (j : nat) : list Q :=
  compute_weights bi (map (fun a => a j) (air s)) (map (fun w => wCu w j) ws) (top_layer s j).
(** s['pickup'] of a cell. *)
Definition picked (os : list outcome) (j : nat) : list Q := map (fun o => pickup o j) os.
Definition handed (os : list outcome) (base : nat -> list Q) (jc : nat * bedcell) : bedcell * list Q :=
  ({| Bed_Model.mass := Bed_Model.mass (snd jc); Bed_Model.pickup := picked os (fst jc); zb := zb (snd jc); zs := zs (snd jc) |}, base (fst jc)).
(** bed.py:223-322 for all cells. *)
Definition settle (p : bedparams) (base : nat -> list Q) (os : list outcome) (cs : list bedcell) : list bedcell :=
  update p (map (handed os base) (combine (seq 0 (length cs)) cs)).

(** What stays the same during a run: bed interaction parameter, whether there is a bed composition file, the distribution, that below the lowest layer. *)
Record setup := { bi : Q; bedcomp : bool; grains : list Q; base : nat -> list Q; bedp : bedparams }.
(** One step with wind (model.py:300-321). *)
Definition step (sp : (nat -> nat -> Q) -> (nat -> Q) -> nat -> Q) (k : cfg) (e : setup) (t0 : bool) (s : state) (ws : list wind) : result (option (state * list outcome)) :=
  let* r := solve sp k t0 (bedcomp e) (grains e) (weights_now (bi e) s ws) (all_reads s ws) in
  Ok (match r with
      | None => None
      | Some (os, w) => Some ({| air := map ct os; sand := settle (bedp e) (base e) os (sand s); oldCu := map wCu ws; oldCuf := map wCuf ws; oldw := w |}, os)
      end).
(** A run; without wind ([None]) nothing happens (model.py:300). [t0]: the first step is at t = 0. The outcomes of the solver are collected. *)
Fixpoint run (sp : (nat -> nat -> Q) -> (nat -> Q) -> nat -> Q) (k : cfg) (e : setup) (t0 : bool) (s : state) (weather : list (option (list wind)))
  : result (option (state * list (list outcome))) :=
  match weather with
  | [] => Ok (Some (s, []))
  | None :: rest => let* r := run sp k e false s rest in Ok (match r with None => None | Some (s', t) => Some (s', [] :: t) end)
  | Some ws :: rest =>
    let* r := step sp k e t0 s ws in
    match r with
    | None => Ok None
    | Some (s1, os) => let* r := run sp k e false s1 rest in Ok (match r with None => None | Some (s', t) => Some (s', os :: t) end)
    end
  end.
