(** Model of the solvers 'trunk' and 'steadystate': /repo/aeolis/model.py:1066-1454 [solve] and 723-1063 [solve_steadystate].
    Exact rationals instead of doubles. The sparse linear solver scipy.sparse.linalg.spsolve is an argument [sp]: theorems assume what they
    need of it. Only the upwind scheme (beta = 1) is modelled, the only one that is called (662-720). Logging and counters are left out. *)
From Verif Require Import Base Num Utils_Model.
Open Scope Q_scope.

(** A field on the grid: row, column. *)
Notation grid := (nat -> nat -> Q).
(** The names of boundary conditions that the solvers know, and any other. *)
Inductive boundary := Flux | Noflux | Constant | Uniform | Gradient | Circular | Unknown.
Definition beq (a b : boundary) : bool :=
  match a, b with
  | Flux, Flux | Noflux, Noflux | Constant, Constant | Uniform, Uniform | Gradient, Gradient | Circular, Circular | Unknown, Unknown => true
  | _, _ => false
  end.
(** Rows 0..ny, columns 0..nx. [trunk] tells solve from solve_steadystate (which has no implicitness: alpha = 1). *)
Record cfg := { trunk : bool; ny : nat; nx : nat; dt : Q; T : Q; alpha : Q; max_error : Q; max_iter : nat;
  offshore : boundary; onshore : boundary; lateral : boundary;
  offshore_flux : Q; onshore_flux : Q; constant_offshore_flux : Q; constant_onshore_flux : Q }.
(** Grain speed of the fraction and sizes of the cells; dsdni = 1 / (ds dn) (gridparams.py:207-208). *)
Record flow := { us : grid; un : grid; uu : grid; ds : grid; dn : grid }.

(** model.py:1151-1165 (777-794): the speed in the neighbouring cell, the own speed at the border. *)
Definition us_plus (f : flow) (r c : nat) : Q := match c with O => us f r O | S c' => us f r c' end.
Definition un_plus (f : flow) (r c : nat) : Q := match r with O => un f O c | S r' => un f r' c end.
Definition us_min (k : cfg) (f : flow) (r c : nat) : Q := if Nat.eqb c (nx k) then us f r c else us f r (S c).
Definition un_min (k : cfg) (f : flow) (r c : nat) : Q := if Nat.eqb r (ny k) then un f r c else un f (S r) c.

(** model.py:1169-1178 (798-808): the Courant numbers; the steady state has no time step. *)
Definition tstep (k : cfg) : Q := if trunk k then dt k else 1.
Definition dsdni (f : flow) (r c : nat) : Q := 1 / (ds f r c * dn f r c).
Definition courant_s (k : cfg) (f : flow) (v : grid) (r c : nat) : Q := tstep k * dn f r c * dsdni f r c * v r c.
Definition courant_n (k : cfg) (f : flow) (v : grid) (r c : nat) : Q := tstep k * ds f r c * dsdni f r c * v r c.
Definition Ti (k : cfg) : Q := tstep k / T k.
(** model.py:1184-1187 (813-816): upwind direction. *)
Definition upw (v : Q) : Q := if Qle_bool 0 v then 1 else 0.
Definition sgn (v : Q) : Q := 2 * upw v - 1.
Definition implicitness (k : cfg) : Q := if trunk k then alpha k else 1.

(** model.py:1206-1210 (835-839): the diagonals without boundaries. *)
Definition base0 (k : cfg) (f : flow) (r c : nat) : Q :=
  (if trunk k then 1 else 0) + (sgn (us f r c) * courant_s k f (us f) r c + sgn (un f r c) * courant_n k f (un f) r c + Ti k) * implicitness k.
Definition basepx (k : cfg) (f : flow) (r c : nat) : Q := courant_n k f (un_min k f) r c * implicitness k * (1 - upw (un f r c)).
Definition basep1 (k : cfg) (f : flow) (r c : nat) : Q := courant_s k f (us_min k f) r c * implicitness k * (1 - upw (us f r c)).
Definition basemx (k : cfg) (f : flow) (r c : nat) : Q := - courant_n k f (un_plus f) r c * implicitness k * upw (un f r c).
Definition basem1 (k : cfg) (f : flow) (r c : nat) : Q := - courant_s k f (us_plus f) r c * implicitness k * upw (us f r c).

(** model.py:1213-1280 (842-909): the diagonals with boundaries. *)
Definition border (k : cfg) (c : nat) : bool := Nat.eqb c 0 || Nat.eqb c (nx k).
Definition fixed_row (k : cfg) (r : nat) : bool := beq (lateral k) Constant && (Nat.eqb r 0 || Nat.eqb r (ny k)).
Definition A0 (k : cfg) (f : flow) (r c : nat) : Q := if border k c || fixed_row k r then 1 else base0 k f r c.
Definition Apx (k : cfg) (f : flow) (r c : nat) : Q := if border k c || fixed_row k r then 0 else basepx k f r c.
Definition Amx (k : cfg) (f : flow) (r c : nat) : Q := if border k c || fixed_row k r then 0 else basemx k f r c.
Definition Ap1 (k : cfg) (f : flow) (r c : nat) : Q :=
  if fixed_row k r || Nat.eqb c (nx k) then 0
  else if Nat.eqb c 0 then match offshore k with Uniform => -1 | Gradient => -1 - ds f r 1%nat / ds f r 2%nat | _ => 0 end
  else basep1 k f r c.
(** In solve the test for the onshore flux boundary also looks at the offshore boundary (model.py:1242). *)
Definition onshore_fixed (k : cfg) : bool := beq (onshore k) Flux || (trunk k && beq (offshore k) Noflux).
Definition Am1 (k : cfg) (f : flow) (r c : nat) : Q :=
  if fixed_row k r || Nat.eqb c 0 then 0
  else if Nat.eqb c (nx k) then
    if onshore_fixed k then 0 else match onshore k with Uniform => -1 | Gradient => -1 - ds f r (nx k - 1)%nat / ds f r (nx k - 2)%nat | _ => 0 end
  else basem1 k f r c.
Definition Ap2 (k : cfg) (f : flow) (r c : nat) : Q :=
  if Nat.eqb c 0 then match offshore k with Gradient => ds f r 1%nat / ds f r 2%nat | _ => 0 end else 0.
Definition Am2 (k : cfg) (f : flow) (r c : nat) : Q :=
  if Nat.eqb c (nx k) then if onshore_fixed k then 0 else match onshore k with Gradient => ds f r (nx k - 1)%nat / ds f r (nx k - 2)%nat | _ => 0 end else 0.

(** The exceptions of these branches. solve_steadystate does not know 'noflux'. *)
Definition check_boundaries (k : cfg) : result unit :=
  let* _ := match offshore k with
            | Flux | Constant | Uniform | Gradient => Ok tt
            | Noflux => if trunk k then Ok tt else Raise ValueError
            | Circular => Raise NotImplementedError
            | Unknown => Raise ValueError
            end in
  let* _ := if onshore_fixed k then Ok tt else match onshore k with Flux | Constant | Uniform | Gradient => Ok tt | _ => Raise ValueError end in
  match lateral k with Constant | Circular => Ok tt | Uniform | Gradient => Raise NotImplementedError | _ => Raise ValueError end.

(** flatten() of a field. *)
Definition width (k : cfg) : nat := S (nx k).
Definition cells (k : cfg) : nat := (S (ny k) * width k)%nat.
Definition flat (k : cfg) (g : grid) (i : nat) : Q := g (i / width k)%nat (i mod width k)%nat.

(** scipy.sparse.diags: element m of a diagonal with offset d >= 0 is at row m, column m + d; with offset -d at row m + d, column m.
    [above d v] and [below d v] are the contributions to entry (i, j). *)
Definition above (d : nat) (v : nat -> Q) (i j : nat) : Q := if Nat.eqb j (i + d) then v i else 0.
Definition below (d : nat) (v : nat -> Q) (i j : nat) : Q := if Nat.eqb i (j + d) then v j else 0.
(** model.py:1283-1301 (912-930) *)
Definition matrix (k : cfg) (f : flow) (i j : nat) : Q :=
  let w := width k in
  if Nat.eqb (ny k) 0 then
    below 2 (fun m => flat k (Am2 k f) (m + 2)%nat) i j + below 1 (fun m => flat k (Am1 k f) (m + 1)%nat) i j + above 0 (flat k (A0 k f)) i j
    + above 1 (flat k (Ap1 k f)) i j + above 2 (flat k (Ap2 k f)) i j
  else
    below (w * ny k) (flat k (Apx k f)) i j + below w (fun m => flat k (Amx k f) (w + m)%nat) i j
    + below 2 (fun m => flat k (Am2 k f) (m + 2)%nat) i j + below 1 (fun m => flat k (Am1 k f) (m + 1)%nat) i j + above 0 (flat k (A0 k f)) i j
    + above 1 (flat k (Ap1 k f)) i j + above 2 (flat k (Ap2 k f)) i j
    + above w (fun m => flat k (Apx k f) (w + m)%nat) i j + above (w * ny k) (flat k (Amx k f)) i j.
(** Diagonals with the same offset are refused (scipy: "offset array contains duplicate values"). *)
Definition distinct_offsets (k : cfg) : bool :=
  Nat.eqb (ny k) 0 || (negb (Nat.eqb (ny k) 1) && Nat.leb 3 (width k)).

(** What a solver reads for one fraction, as flat vectors; [l...] are the values of the previous time step. *)
Record input := { Cu : nat -> Q; Cuf : nat -> Q; Cu0 : nat -> Q; mass : nat -> Q; lCt : nat -> Q; lCu : nat -> Q; lCuf : nat -> Q; lw : nat -> Q; sat : nat -> Q }.

(** np.roll along the rows. *)
Definition row_before (k : cfg) (i : nat) : nat := if Nat.ltb i (width k) then (i + width k * ny k)%nat else (i - width k)%nat.
Definition row_after (k : cfg) (i : nat) : nat := if Nat.ltb i (width k * ny k) then (i + width k)%nat else (i - width k * ny k)%nat.
(** model.py:1325-1358 (952-968): the right hand side. *)
Definition source (k : cfg) (w cu cuf s : Q) : Q := w * cuf * Ti k * (1 - s) + w * cu * Ti k * s.
Definition explicit (k : cfg) (f : flow) (d : input) (i : nat) : Q :=
  let r := (i / width k)%nat in let c := (i mod width k)%nat in
  source k (lw d i) (lCu d i) (lCuf d i) (sat d i)
  - (sgn (us f r c) * courant_s k f (us f) r c + sgn (un f r c) * courant_n k f (un f) r c + Ti k) * lCt d i
  + upw (us f r c) * courant_s k f (us_plus f) r c * lCt d (i - 1)%nat
  - (1 - upw (us f r c)) * courant_s k f (us_min k f) r c * lCt d (i + 1)%nat
  + upw (un f r c) * courant_n k f (un_plus f) r c * lCt d (row_before k i)
  - (1 - upw (un f r c)) * courant_n k f (un_min k f) r c * lCt d (row_after k i).
Definition rhs (k : cfg) (f : flow) (d : input) (w : nat -> Q) (i : nat) : Q :=
  let r := (i / width k)%nat in let c := (i mod width k)%nat in
  if Nat.eqb c (nx k) then
    match onshore k with Flux => onshore_flux k * Cu0 d i | Constant => constant_onshore_flux k / uu f r c | _ => 0 end
  else if Nat.eqb c 0 then
    match offshore k with Flux => offshore_flux k * Cu0 d i | Constant => constant_offshore_flux k / uu f r c | _ => 0 end
  else if trunk k then lCt d i + alpha k * source k (w i) (Cu d i) (Cuf d i) (sat d i) + (1 - alpha k) * explicit k f d i
  else source k (w i) (Cu d i) (Cuf d i) (sat d i).

(** A computed vector (evaluated once). *)
Definition memo (n : nat) (v : nat -> Q) : nat -> Q := let l := map v (seq 0 n) in fun i => nth i l 0.
Definition sumn (n : nat) (v : nat -> Q) : Q := qsum (map v (seq 0 n)).
Definition anyn (n : nat) (b : nat -> bool) : bool := existsb b (seq 0 n).

(** model.py:1362-1382 (972-987): negative concentrations are removed and the others scaled. [None]: the result contains NaN, which
    happens in solve_steadystate when all other concentrations are zero. *)
Definition negative (x : nat -> Q) (i : nat) : bool := Qltb (x i) 0.
Definition pos_sum (n : nat) (x : nat -> Q) : Q := sumn n (fun i => if negative x i then 0 else x i).
Definition neg_sum (n : nat) (x : nat -> Q) : Q := sumn n (fun i => if negative x i then x i else 0).
Definition remove_negatives (guard : bool) (n : nat) (x : nat -> Q) : option (nat -> Q) :=
  if anyn n (negative x) then
    if Qeq_bool (pos_sum n x) 0 then
      if guard || negb (anyn n (fun i => negb (negative x i))) then Some (fun _ => 0) else None
    else Some (memo n (fun i => if negative x i then 0 else x i * (1 + neg_sum n x / pos_sum n x)))
  else Some x.
Definition tidy (k : cfg) (x : nat -> Q) : option (nat -> Q) :=
  remove_negatives (trunk k) (cells k) (memo (cells k) (fun i => no_tiny_negative (max_error k) 0 (x i))).

(** model.py:1385-1407 (990-1012): pickup, deficit and reduction of the weights. *)
Definition demand (k : cfg) (d : input) (w ct : nat -> Q) (i : nat) : Q := (w i * Cu d i - ct i) / T k * dt k.
Definition short (k : cfg) (d : input) (w ct : nat -> Q) (i : nat) : bool :=
  Qltb (max_error k) (demand k d w ct i - mass d i) && Qltb 0 (w i * Cu d i).
Definition reduced (k : cfg) (d : input) (w ct : nat -> Q) (i : nat) : Q :=
  if short k d w ct i then (mass d i * T k / dt k + ct i) / Cu d i else w i.

(** The outcome for one fraction. *)
Record outcome := { ct : nat -> Q; pickup : nat -> Q; weight : nat -> Q; converged : bool }.
(** model.py:1315-1407 (942-1012): [fuel] more iterations, at least one. *)
Fixpoint iterate (sp : (nat -> nat -> Q) -> (nat -> Q) -> nat -> Q) (k : cfg) (f : flow) (d : input) (w : nat -> Q) (fuel : nat) : option outcome :=
  match tidy k (sp (matrix k f) (rhs k f d w)) with
  | None => None
  | Some c =>
    if anyn (cells k) (short k d w c) then
      let w' := memo (cells k) (reduced k d w c) in
      match fuel with
      | O => Some {| ct := c; pickup := demand k d w c; weight := w'; converged := false |}
      | S fuel' => iterate sp k f d w' fuel'
      end
    else Some {| ct := c; pickup := fun i => qmin (demand k d w c i) (mass d i); weight := w; converged := true |}
  end.
(** One fraction; without any iteration the name Ct_i is undefined. *)
Definition solve_fraction (sp : (nat -> nat -> Q) -> (nat -> Q) -> nat -> Q) (k : cfg) (f : flow) (d : input) (w : nat -> Q) : result (option outcome) :=
  let* _ := check_boundaries k in
  if negb (distinct_offsets k) then Raise ValueError
  else match max_iter k with O => Raise NameError | S n => Ok (iterate sp k f d w n) end.

(** model.py:1149-1431 (776-1036): all fractions in turn. The weights of a cell are the list over the fractions; they are renormalised before
    each fraction. A fraction with NaN ends the modelled part. *)
Fixpoint set_nth (n : nat) (x : Q) (l : list Q) : list Q :=
  match l, n with [], _ => [] | _ :: l', O => x :: l' | y :: l', S n' => y :: set_nth n' x l' end.
Fixpoint fractions (sp : (nat -> nat -> Q) -> (nat -> Q) -> nat -> Q) (k : cfg) (i : nat) (fs : list (flow * input)) (w : nat -> list Q)
  : result (option (list outcome * (nat -> list Q))) :=
  match fs with
  | [] => Ok (Some ([], w))
  | (f, d) :: fs' =>
    let w1 := fun c => renormalize_weights (w c) i in
    let* o := solve_fraction sp k f d (memo (cells k) (fun c => nth i (w1 c) 0)) in
    match o with
    | None => Ok None
    | Some o =>
      let* rest := fractions sp k (S i) fs' (fun c => set_nth i (weight o c) (w1 c)) in
      Ok (match rest with None => None | Some (os, w2) => Some (o :: os, w2) end)
    end
  end.
(** model.py:1109-1120 (737-748): the weights to start with. [init] are those of compute_weights, [dist] the configured distribution. In solve_steadystate the
    distribution, an array, is compared with None, which has no truth value for more than one fraction. [bedcomp]: a bed composition file is given. *)
Definition start_weights (k : cfg) (t0 : bool) (bedcomp : bool) (dist : list Q) (init : nat -> list Q) : result (nat -> list Q) :=
  if t0 then
    if trunk k then Ok (if bedcomp then init else fun _ => dist)
    else match dist with [_] => Ok (fun _ => dist) | _ => Raise ValueError end
  else Ok init.
Definition solve (sp : (nat -> nat -> Q) -> (nat -> Q) -> nat -> Q) (k : cfg) (t0 bedcomp : bool) (dist : list Q) (init : nat -> list Q)
  (fs : list (flow * input)) : result (option (list outcome * (nat -> list Q))) :=
  let* w := start_weights k t0 bedcomp dist init in fractions sp k 0 fs w.
