(** Model of the solvers 'pieter' and 'steadystatepieter': /repo/aeolis/model.py:1837-2257 [solve_pieter] and 1457-1834 [solve_steadystatepieter].
    Exact rationals instead of doubles; the sparse linear solver is an argument [sp]. Only the upwind scheme (beta = 1) is modelled, the only
    one that is called (662-720). Logging and counters are left out. The configuration, the grain speeds and the input of a fraction are the
    records of [Solver_Model]; [trunk] now tells solve_pieter from solve_steadystatepieter. Numbers in parentheses are lines of the latter. *)
From Verif Require Import Base Num Utils_Model Solver_Model.
Open Scope Q_scope.

(** The configuration of the other solvers and the factor of the lateral flux boundary. *)
Record pcfg := { base :> cfg; lateral_flux : Q }.

(** A term that is only there in part of the grid. *)
Definition only (b : bool) (q : Q) : Q := if b then q else 0.
(** gridparams.py:207: dsdn = ds * dn. *)
Definition dsdn (f : flow) (r c : nat) : Q := ds f r c * dn f r c.

(** model.py:1907-1920 (1497-1511): the speeds on the faces. Face j of a row lies between the columns j - 1 and j. *)
Definition speed_s (k : pcfg) (f : flow) (r j : nat) : Q :=
  if Nat.eqb j 0 then us f r 0%nat else if Nat.eqb j (S (nx k)) then us f r (nx k)
  else (1 # 2) * us f r (j - 1)%nat + (1 # 2) * us f r j.
Definition speed_n (k : pcfg) (f : flow) (j c : nat) : Q :=
  if Nat.eqb j 0 || Nat.eqb j (S (ny k)) then
    if beq (lateral k) Circular then (1 # 2) * un f 0%nat c + (1 # 2) * un f (ny k) c
    else if Nat.eqb j 0 then un f 0%nat c else un f (ny k) c
  else (1 # 2) * un f (j - 1)%nat c + (1 # 2) * un f j c.

(** The five coefficients of a cell. *)
Record coef := { a0 : Q; am1 : Q; ap1 : Q; amx : Q; apx : Q }.
Definition fixed : coef := {| a0 := 1; am1 := 0; ap1 := 0; amx := 0; apx := 0 |}.

(** model.py:1932-1949 (1523-1540): without boundaries. The steady state has no time derivative and is fully implicit. *)
Definition inner (k : pcfg) (f : flow) (r c : nat) : coef :=
  let al := implicitness k in
  let vs := speed_s k f r c in let vs' := speed_s k f r (S c) in
  let vn := speed_n k f r c in let vn' := speed_n k f (S r) c in
  {| a0 := only (trunk k) (dsdn f r c / dt k) + dsdn f r c / T k * al
       - only (Nat.leb 1 c) (dn f r c * vs * (1 - upw vs) * al) + only (Nat.ltb c (nx k)) (dn f r c * vs' * upw vs' * al)
       - only (Nat.leb 1 r) (ds f r c * vn * (1 - upw vn) * al) + only (Nat.ltb r (ny k)) (ds f r c * vn' * upw vn' * al);
     am1 := only (Nat.leb 1 c) (- (dn f r c * vs * upw vs * al));
     ap1 := only (Nat.ltb c (nx k)) (dn f r c * vs' * (1 - upw vs') * al);
     amx := only (Nat.leb 1 r) (- (ds f r c * vn * upw vn * al));
     apx := only (Nat.ltb r (ny k)) (ds f r c * vn' * (1 - upw vn') * al) |}.
(** model.py:1952-1971 (1543-1562): the offshore boundary. *)
Definition with_offshore (k : pcfg) (f : flow) (r c : nat) (a : coef) : coef :=
  if Nat.eqb c 0 then
    match offshore k with
    | Constant => fixed
    | Gradient => let v := speed_s k f r 1%nat in
      {| a0 := a0 a - dn f r c * v * upw v * implicitness k; am1 := am1 a; ap1 := ap1 a - dn f r c * v * (1 - upw v) * implicitness k; amx := amx a; apx := apx a |}
    | _ => a
    end
  else a.
(** model.py:1973-1992 (1564-1583): the onshore boundary. *)
Definition with_onshore (k : pcfg) (f : flow) (r c : nat) (a : coef) : coef :=
  if Nat.eqb c (nx k) then
    match onshore k with
    | Constant => fixed
    | Gradient => let v := speed_s k f r (nx k) in
      {| a0 := a0 a + dn f r c * v * (1 - upw v) * implicitness k; am1 := am1 a + dn f r c * v * upw v * implicitness k; ap1 := ap1 a; amx := amx a; apx := apx a |}
    | _ => a
    end
  else a.
(** model.py:1994-2023 (1585-1614): the lateral boundaries, first row and last row (the same one if there is only one row). *)
Definition with_first (k : pcfg) (f : flow) (r c : nat) (a : coef) : coef :=
  if Nat.eqb r 0 then
    match lateral k with
    | Constant => fixed
    | Gradient => let v := speed_n k f 1%nat c in
      {| a0 := a0 a - ds f r c * v * upw v * implicitness k; am1 := am1 a; ap1 := ap1 a; amx := amx a; apx := apx a - ds f r c * v * (1 - upw v) * implicitness k |}
    | Circular => let v := speed_n k f 0%nat c in
      {| a0 := a0 a - ds f r c * v * (1 - upw v) * implicitness k; am1 := am1 a; ap1 := ap1 a; amx := amx a - ds f r c * v * upw v * implicitness k; apx := apx a |}
    | _ => a
    end
  else a.
Definition with_last (k : pcfg) (f : flow) (r c : nat) (a : coef) : coef :=
  if Nat.eqb r (ny k) then
    match lateral k with
    | Constant => fixed
    | Gradient => let v := speed_n k f (ny k) c in
      {| a0 := a0 a + ds f r c * v * (1 - upw v) * implicitness k; am1 := am1 a; ap1 := ap1 a; amx := amx a + ds f r c * v * upw v * implicitness k; apx := apx a |}
    | Circular => let v := speed_n k f (S (ny k)) c in
      {| a0 := a0 a + ds f r c * v * upw v * implicitness k; am1 := am1 a; ap1 := ap1 a; amx := amx a; apx := apx a + ds f r c * v * (1 - upw v) * implicitness k |}
    | _ => a
    end
  else a.
Definition coefs (k : pcfg) (f : flow) (r c : nat) : coef := with_last k f r c (with_first k f r c (with_onshore k f r c (with_offshore k f r c (inner k f r c)))).

(** model.py:2025-2040 (1616-1633): the matrix. The coefficients of the next row are taken one row too far, as in the other solvers. *)
Definition pmatrix (k : pcfg) (f : flow) (i j : nat) : Q :=
  let w := width k in let g (p : coef -> Q) := flat k (fun r c => p (coefs k f r c)) in
  let one_row := below 1 (fun m => g am1 (m + 1)%nat) i j + above 0 (g a0) i j + above 1 (g ap1) i j in
  if Nat.eqb (ny k) 0 then one_row
  else below (w * ny k) (g apx) i j + below w (fun m => g amx (w + m)%nat) i j + one_row
    + above w (fun m => g apx (w + m)%nat) i j + above (w * ny k) (g amx) i j.
(** Diagonals with the same offset are refused (scipy: "offset array contains duplicate values"). *)
Definition pdistinct (k : pcfg) : bool := Nat.eqb (ny k) 0 || (negb (Nat.eqb (ny k) 1) && Nat.leb 1 (nx k)).

(** model.py:2057-2074 (1651-1661): the concentrations on the faces; [x] is the present guess. The steady state forgets the last face of a
    circular boundary, which keeps the zero of the initialisation. *)
Definition mixed (k : pcfg) (d : input) (x : nat -> Q) (i : nat) : Q := implicitness k * x i + (1 - implicitness k) * lCt d i.
Definition cell (k : pcfg) (g : nat -> Q) (r c : nat) : Q := g (r * width k + c)%nat.
Definition face_s (k : pcfg) (f : flow) (d : input) (x : nat -> Q) (r j : nat) : Q :=
  if Nat.eqb j 0 || Nat.eqb j (S (nx k)) then 0
  else let u := upw (speed_s k f r j) in u * cell k (mixed k d x) r (j - 1) + (1 - u) * cell k (mixed k d x) r j.
Definition face_n (k : pcfg) (f : flow) (d : input) (x : nat -> Q) (j c : nat) : Q :=
  let u := upw (speed_n k f j c) in
  if Nat.eqb j 0 || Nat.eqb j (S (ny k)) then
    if beq (lateral k) Circular && (Nat.eqb j 0 || trunk k) then u * cell k (mixed k d x) (ny k) c + (1 - u) * cell k (mixed k d x) 0 c else 0
  else u * cell k (mixed k d x) (j - 1) c + (1 - u) * cell k (mixed k d x) j c.

(** model.py:2077-2083 (1664-1669): deposition, availability and erosion. *)
Definition settles (k : pcfg) (f : flow) (d : input) (x : nat -> Q) (r c : nat) : Q := dsdn f r c / T k * cell k (mixed k d x) r c.
Definition available (k : pcfg) (f : flow) (d : input) (x : nat -> Q) (r c : nat) : Q := dsdn f r c / T k * cell k (mass d) r c + settles k f d x r c.
Definition uptake (k : pcfg) (f : flow) (d : input) (w : nat -> Q) (r c : nat) : Q :=
  dsdn f r c / T k * (cell k w r c * implicitness k * cell k (Cu d) r c + (1 - implicitness k) * cell k (lw d) r c * cell k (lCu d) r c).
Definition eroded (k : pcfg) (f : flow) (d : input) (w x : nat -> Q) (r c : nat) : Q := qmin (uptake k f d w r c) (available k f d x r c).

(** model.py:2088-2095 (1674-1680): the right hand side without boundaries. *)
Definition residual (k : pcfg) (f : flow) (d : input) (w x : nat -> Q) (r c : nat) : Q :=
  - only (trunk k) (dsdn f r c / dt k * (cell k x r c - cell k (lCt d) r c)) + (eroded k f d w x r c - settles k f d x r c)
  + only (Nat.leb 1 c) (dn f r c * speed_s k f r c * face_s k f d x r c) - only (Nat.ltb c (nx k)) (dn f r c * speed_s k f r (S c) * face_s k f d x r (S c))
  + only (Nat.leb 1 r) (ds f r c * speed_n k f r c * face_n k f d x r c) - only (Nat.ltb r (ny k)) (ds f r c * speed_n k f (S r) c * face_n k f d x (S r) c).
(** model.py:2098-2114 (1683-1698). 'constant' sets the increment: to zero, in the steady state to the configured number. *)
Definition offshore_side (k : pcfg) (f : flow) (d : input) (x : nat -> Q) (r c : nat) (y : Q) : Q :=
  if Nat.eqb c 0 then
    match offshore k with
    | Flux => y + dn f r c * speed_s k f r 0%nat * cell k (Cu0 d) r c * offshore_flux k
    | Constant => if trunk k then 0 else constant_offshore_flux k
    | Gradient => y + dn f r 1%nat * speed_s k f r 1%nat * face_s k f d x r 1%nat
    | _ => y
    end
  else y.
(** model.py:2116-2132 (1700-1716) *)
Definition onshore_side (k : pcfg) (f : flow) (d : input) (x : nat -> Q) (r c : nat) (y : Q) : Q :=
  if Nat.eqb c (nx k) then
    match onshore k with
    | Flux => y + dn f r c * speed_s k f r (S (nx k)) * cell k (Cu0 d) r c * onshore_flux k
    | Constant => if trunk k then 0 else constant_onshore_flux k
    | Gradient => y - dn f r (nx k - 1)%nat * speed_s k f r (nx k) * face_s k f d x r (nx k)
    | _ => y
    end
  else y.
(** model.py:2134-2153 (1718-1736) *)
Definition last_side (k : pcfg) (f : flow) (d : input) (x : nat -> Q) (r c : nat) (y : Q) : Q :=
  if Nat.eqb r (ny k) then
    match lateral k with
    | Flux => y - ds f r c * speed_n k f (S (ny k)) c * cell k (Cu0 d) r c * lateral_flux k
    | Constant => 0
    | Gradient => y - ds f (ny k - 1)%nat c * speed_n k f (ny k) c * face_n k f d x (ny k) c
    | Circular => y - ds f r c * speed_n k f (S (ny k)) c * face_n k f d x (S (ny k)) c
    | _ => y
    end
  else y.
Definition first_side (k : pcfg) (f : flow) (d : input) (x : nat -> Q) (r c : nat) (y : Q) : Q :=
  if Nat.eqb r 0 then
    match lateral k with
    | Flux => y + ds f r c * speed_n k f 0%nat c * cell k (Cu0 d) r c * lateral_flux k
    | Constant => 0
    | Gradient => y + ds f 1%nat c * speed_n k f 1%nat c * face_n k f d x 1%nat c
    | Circular => y + ds f r c * speed_n k f 0%nat c * face_n k f d x 0%nat c
    | _ => y
    end
  else y.
Definition side (k : pcfg) (f : flow) (d : input) (w x : nat -> Q) (r c : nat) : Q :=
  first_side k f d x r c (last_side k f d x r c (onshore_side k f d x r c (offshore_side k f d x r c (residual k f d w x r c)))).
Definition prhs (k : pcfg) (f : flow) (d : input) (w x : nat -> Q) (i : nat) : Q := flat k (side k f d w x) i.

(** The exceptions of the boundary branches; the sizes of neighbouring cells that do not exist (model.py:2109, 2127, 2147). *)
Definition pcheck (k : pcfg) : result unit :=
  let side b := match b with Flux | Constant | Gradient => Ok tt | Circular => Raise NotImplementedError | _ => Raise ValueError end in
  let* _ := side (offshore k) in
  let* _ := side (onshore k) in
  let* _ := match lateral k with Flux | Constant | Gradient | Circular => Ok tt | _ => Raise ValueError end in
  if negb (pdistinct k) then Raise ValueError
  else if Nat.eqb (max_iter k) 0 then Raise NameError
  else if (beq (offshore k) Gradient || beq (onshore k) Gradient) && Nat.eqb (nx k) 0 || beq (lateral k) Gradient && Nat.eqb (ny k) 0 then Raise IndexError
  else Ok tt.

(** model.py:2159-2176 (1742-1759): the new guess; negative concentrations are removed as in solve_steadystate, [None]: NaN. *)
Definition improve (sp : (nat -> nat -> Q) -> (nat -> Q) -> nat -> Q) (k : pcfg) (f : flow) (d : input) (w x : nat -> Q) : nat -> Q :=
  let inc := sp (pmatrix k f) (prhs k f d w x) in memo (cells k) (fun i => x i + inc i).
Definition ptidy (k : pcfg) (x : nat -> Q) : option (nat -> Q) :=
  remove_negatives false (cells k) (memo (cells k) (fun i => no_tiny_negative (max_error k) 0 (x i))).
(** model.py:2052-2206 (1646-1789): [fuel] more iterations, at least one. The pickup is stored before it is limited to the mass in the bed (2201). *)
Fixpoint piterate (sp : (nat -> nat -> Q) -> (nat -> Q) -> nat -> Q) (k : pcfg) (f : flow) (d : input) (w x : nat -> Q) (fuel : nat) : option outcome :=
  match ptidy k (improve sp k f d w x) with
  | None => None
  | Some c =>
    if anyn (cells k) (short k d w c) then
      let w' := memo (cells k) (reduced k d w c) in
      match fuel with
      | O => Some {| ct := c; pickup := demand k d w c; weight := w'; converged := false |}
      | S fuel' => piterate sp k f d w' c fuel'
      end
    else Some {| ct := c; pickup := demand k d w c; weight := w; converged := true |}
  end.
(** One fraction; [x] is the concentration in the state when the solver is called. *)
Definition pieter_fraction (sp : (nat -> nat -> Q) -> (nat -> Q) -> nat -> Q) (k : pcfg) (f : flow) (d : input) (w x : nat -> Q) : result (option outcome) :=
  let* _ := pcheck k in Ok (piterate sp k f d w x (max_iter k - 1)).

(** model.py:1905-2229 (1495-1812): all fractions in turn, as in [Solver_Model.fractions]. A fraction with NaN ends the modelled part. *)
Fixpoint pfractions (sp : (nat -> nat -> Q) -> (nat -> Q) -> nat -> Q) (k : pcfg) (i : nat) (fs : list (flow * input * (nat -> Q))) (w : nat -> list Q)
  : result (option (list outcome * (nat -> list Q))) :=
  match fs with
  | [] => Ok (Some ([], w))
  | (f, d, x) :: fs' =>
    let w1 := fun c => renormalize_weights (w c) i in
    let* o := pieter_fraction sp k f d (memo (cells k) (fun c => nth i (w1 c) 0)) x in
    match o with
    | None => Ok None
    | Some o =>
      let* rest := pfractions sp k (S i) fs' (fun c => set_nth i (weight o c) (w1 c)) in
      Ok (match rest with None => None | Some (os, w2) => Some (o :: os, w2) end)
    end
  end.
(** What is put into the state: only the weights (in the first step, model.py:1885-1890 and 1475-1480), or everything. *)
Inductive change := Weights (w : nat -> list Q) | All (os : list outcome) (w : nat -> list Q) | NaN.
Definition solve_pieter (sp : (nat -> nat -> Q) -> (nat -> Q) -> nat -> Q) (k : pcfg) (t0 : bool) (dist : list Q) (init : nat -> list Q)
  (fs : list (flow * input * (nat -> Q))) : result change :=
  if t0 then Ok (Weights (fun _ => dist))
  else let* o := pfractions sp k 0 fs init in Ok (match o with None => NaN | Some (os, w) => All os w end).
