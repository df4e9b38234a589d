(** Model of aeolis/bed.py. Exact rational arithmetic. A cell of the bed is a list of layers, from the
    top down; a layer is the list of the masses of the fractions. Operations on whole arrays are
    elementwise over the cells, except for the tests [np.any(...)], which are kept. *)
From Verif Require Import Base Num Utils_Model.
Open Scope Q_scope.

Notation layer := (list Q) (only parsing).
Notation bed := (list (list Q)) (only parsing).

Definition vsub (a b : list Q) : list Q := map2 (fun x y => x - y) a b.
Definition vadd (a b : list Q) : list Q := map2 Qplus a b.
Definition vscale (c : Q) (v : list Q) : list Q := map (Qmult c) v.

(** ** bed.py:45-104 [initialize], composition of one cell at column [x] of a grid with [nx + 1]
    columns. [grain_dist] is an array of one or two dimensions (model.py:204 sets nf to the number of
    grain sizes, independently of it), of integers or floats. The string check of line 86 belongs to
    the configuration. *)
Inductive dist := Dist1 (isint : bool) (d : list Q) | Dist2 (isint : bool) (rows : list (list Q)).
Definition is_int (g : dist) : bool := match g with Dist1 b _ => b | Dist2 b _ => b end.

(** bed.py:93-94 (and 102-104): one layer of thickness [th], gs already divided by its sum;
    gs[j] raises IndexError beyond the end. *)
Definition fill_layer (rhog porosity th : Q) (nf : nat) (gs : list Q) : result layer :=
  if Nat.ltb (length gs) nf then Raise IndexError
  else Ok (map (fun g => rhog * (1 - porosity) * th * g) (firstn nf gs)).

Fixpoint mapres {A B} (f : A -> result B) (l : list A) : result (list B) :=
  match l with
  | [] => Ok []
  | a :: r => bind (f a) (fun b => bind (mapres f r) (fun bs => Ok (b :: bs)))
  end.
Fixpoint mapres2 {A B C} (f : A -> B -> result C) (l : list A) (m : list B) : result (list C) :=
  match l, m with
  | a :: l', b :: m' => bind (f a b) (fun c => bind (mapres2 f l' m') (fun cs => Ok (c :: cs)))
  | _, _ => Ok []
  end.
Definition divided (gs : list Q) : list Q := map (fun g => g / qsum gs) gs.

(** bed.py:90-95 with a matrix: gs[j] is a row, multiplied with the thickness of all cells, which only
    fits if the row has as many entries as the grid has columns, or one. *)
Definition fill_layer_rows (rhog porosity th : Q) (nf nx x : nat) (rows : list (list Q)) : result layer :=
  let total := qsum (map qsum rows) in
  if Nat.ltb (length rows) nf then Raise IndexError
  else mapres (fun row =>
    if Nat.eqb (length row) 1 then Ok (rhog * (1 - porosity) * th * (nth 0 row 0 / total))
    else if Nat.eqb (length row) (nx + 1) then Ok (rhog * (1 - porosity) * th * (nth x row 0 / total))
    else Raise ValueError) (firstn nf rows).

Definition initialize (rhog porosity : Q) (nf nx x : nat) (thlyr : list Q) (grain_dist : dist) (bedcomp : option bed) : result bed :=
  (* bed.py:89: [A and B and C or D] *)
  match grain_dist, bedcomp with
  | Dist1 false d, None => mapres (fun th => fill_layer rhog porosity th nf (divided d)) thlyr
  | Dist1 true d, _ => mapres (fun th => fill_layer rhog porosity th nf (divided d)) thlyr
  | Dist2 true rows, _ => mapres (fun th => fill_layer_rows rhog porosity th nf nx x rows) thlyr
  | Dist2 false rows, None =>
      if Nat.eqb (length thlyr) (length rows)
      then mapres2 (fun th row => fill_layer rhog porosity th nf (divided row)) thlyr rows
      else Raise ValueError
  | _, Some b => Ok b
  end.

(** ** bed.py:121-190 [mixtoplayer] *)
Record mixcell := { thlyr : list Q; mixmass : bed; hsmix : Q }.
Definition dod (facDOD : Q) (c : mixcell) : Q := facDOD * hsmix c.
(** bed.py:158-160 *)
Definition mixfraction (d : Q) (th : list Q) : Q := if Qltb 0 d then qmin 1 (qsum th / d) else 1.
(** bed.py:167 *)
Definition disturbed (d : Q) (th : list Q) : list bool := map (fun c => Qle_bool c d && Qltb 0 d) (cumsum 0 th).
(** bed.py:173 *)
Definition with_top (any : bool) (ix : list bool) : list bool :=
  if any then match ix with [] => [] | _ :: r => true :: r end else ix.
Definition selected (ix : list bool) (m : bed) : bed := map snd (filter fst (combine ix m)).
(** np.nanmean over the selected layers *)
Definition layer_mean (nf : nat) (sel : bed) : layer :=
  map (fun s => s / inject_Z (Z.of_nat (length sel))) (column_sums nf sel).
Definition mix_cell (any : bool) (nf : nat) (facDOD : Q) (c : mixcell) : bed :=
  let d := dod facDOD c in
  let f := mixfraction d (thlyr c) in
  let ix := with_top any (disturbed d (thlyr c)) in
  let mean := layer_mean nf (selected ix (mixmass c)) in
  if any then
    map2 (fun (b : bool) l => if b then map2 (fun m1 m => m1 * f + m * (1 - f)) mean l else l) ix (mixmass c)
  else mixmass c.
Definition any_disturbed (facDOD : Q) (cells : list mixcell) : bool :=
  existsb (fun c => existsb (fun b => b) (disturbed (dod facDOD c) (thlyr c))) cells.
Definition mixtoplayer (process : bool) (nf : nat) (facDOD : Q) (cells : list mixcell) : list bed :=
  if process then map (mix_cell (any_disturbed facDOD cells) nf facDOD) cells else map mixmass cells.

(** ** bed.py:193-219 [wet_bed_reset], one cell; dividing by a zero Tbedreset raises. *)
Definition wet_bed_reset (process : bool) (dt tbedreset zs zb zb0 : Q) : result Q :=
  if process then
    if Qeq_bool tbedreset 0 then Raise ZeroDivisionError
    else Ok (if Qltb (zb + (1 # 100)) zs then zb + (zb0 - zb) * (dt / tbedreset) else zb)
  else Ok zb.

(** ** bed.py:325-451 [prevent_negative_mass] *)
(** Case 1 of one cell, with [dm] the exchanged mass (the same for all fractions). *)
Definition erosive (pickup : list Q) : list Q := map (qmax 0) pickup.
Definition depositing (pickup : list Q) : list Q := map (fun p => - qmin 0 p) pickup.
Definition prevent1 (m : bed) (dm : Q) (pickup : list Q) : bed * Q * list Q :=
  let ero := erosive pickup in
  let dep := depositing pickup in
  let erog := qsum ero in
  if Qltb 0 dm && Qltb 0 erog then
    let ddep := vscale erog (normalize 0 dep) in
    let pickup' := vsub ddep dep in
    let m' := match m with [] => [] | top :: r => vsub top (vsub ero ddep) :: r end in
    (m', - qsum pickup', pickup')
  else (m, dm, pickup).

Definition top_mass (m : bed) : Q := match m with [] => 0 | top :: _ => qsum top end.
(** bed.py:420 [n = dm // mx] compared with i; division by zero gives infinity for a positive dm. *)
Definition exceeds (dm mx : Q) (i : nat) : bool :=
  if Qeq_bool mx 0 then Qltb 0 dm else Z.ltb (Z.of_nat i) (Qfloor (dm / mx)).
(** bed.py:429-442, starting at layer [i], of which the layers before are finished: [i + length m] is
    the number of layers. *)
Fixpoint fill_layers (dm mx : Q) (fresh : layer) (i k : nat) (m : bed) (pickup : list Q) : bed * list Q :=
  match k with
  | O => (m, pickup)
  | S k' =>
      if exceeds dm mx i then
        let '(m', pickup') := fill_layers dm mx fresh (S i) k' (removelast m) (vsub pickup fresh) in
        (fresh :: m', pickup')
      else (m, pickup)
  end.
(** Case 2 of one cell; [any] tells whether some cell of the grid has n > 0 (line 423). *)
Definition prevent2 (any : bool) (m : bed) (dm : Q) (pickup : list Q) : bed * Q * list Q :=
  if any then
    let mx := top_mass m in
    let fresh := vscale mx (normalize 0 pickup) in
    let '(m', pickup') := fill_layers dm mx fresh 0 (length m) m pickup in
    if Qltb mx dm then
      let pickup'' := map (fun _ => 0) pickup' in (m', - qsum pickup'', pickup'')
    else (m', dm, pickup')
  else (m, dm, pickup).

(** ** bed.py:471-506 [arrange_layers], one cell; [d] the normalised layers. *)
Fixpoint arrange_erosion (dm : Q) (d m : bed) : bed :=
  match d, m with
  | _ :: ((d1 :: _) as d'), m0 :: m1 :: ms =>
      vsub m0 (vscale dm d1) :: arrange_erosion dm d' (vadd m1 (vscale dm d1) :: ms)
  | _, _ => m
  end.
Fixpoint arrange_deposition (dm : Q) (d m : bed) : bed :=
  match d, m with
  | d0 :: d', m0 :: m' =>
      match d', m' with
      | _ :: _, m1 :: ms => vsub m0 (vscale dm d0) :: arrange_deposition dm d' (vadd m1 (vscale dm d0) :: ms)
      | _, _ => vsub m0 (vscale dm d0) :: m'
      end
  | _, _ => m
  end.
Fixpoint on_last (f : layer -> layer) (m : bed) : bed :=
  match m with
  | [] => []
  | [l] => [f l]
  | l :: r => l :: on_last f r
  end.

(** ** bed.py:223-322 [update], one cell. [base] is the normalised distribution of the sediment below
    the lowest layer (lines 291-297). *)
Definition first_layer (f : layer -> layer) (m : bed) : bed := match m with [] => [] | l :: r => f l :: r end.
Definition exchanged (pickup : list Q) : Q := - qsum pickup.
Definition update_cell (any : bool) (max_error : Q) (base : layer) (m : bed) (pickup : list Q) : bed * Q * list Q :=
  let dm := exchanged pickup in
  let '(m1, dm1, pickup1) := prevent1 m dm pickup in
  let '(m2, dm2, pickup2) := prevent2 any m1 dm1 pickup1 in
  let d := map (normalize 0) m2 in
  let m3 := first_layer (fun top => vsub top pickup2) m2 in
  let m4 := if Qltb dm 0 then arrange_erosion dm2 d m3
            else if Qltb 0 dm then arrange_deposition dm2 d m3 else m3 in
  let m5 := if Qltb dm 0 then on_last (fun l => vsub l (vscale dm2 base)) m4 else m4 in
  (map (prevent_tiny_negatives max_error 0) m5, dm2, pickup2).

Record bedcell := { mass : bed; pickup : list Q; zb : Q; zs : Q }.
(** bed.py:420-423 *)
Definition overfull (c : bedcell) : bool :=
  let '(m1, dm1, _) := prevent1 (mass c) (exchanged (pickup c)) (pickup c) in
  exceeds dm1 (top_mass m1) 0.
Record bedparams := { max_error : Q; rhog : Q; porosity : Q; process_bedupdate : bool; process_tide : bool }.
Definition update (p : bedparams) (cells : list (bedcell * layer)) : list bedcell :=
  let any := existsb (fun cb => overfull (fst cb)) cells in
  map (fun cb => let c := fst cb in
    let '(m', dm', pickup') := update_cell any (max_error p) (snd cb) (mass c) (pickup c) in
    let dz := if process_bedupdate p then dm' / (rhog p * (1 - porosity p)) else 0 in
    {| mass := m'; pickup := pickup'; zb := zb c + dz; zs := if process_tide p then zs c + dz else zs c |}) cells.

(** ** bed.py:454-469 [average_change], one cell *)
Definition dzbyear (zb' zb dt accfac : Q) : Q := (zb' - zb) * (3600 * 24 * (36525 # 100)) / (dt * accfac).
Definition dzbavg (zb' zb dt accfac avg_time dzbavg0 : Q) : Q :=
  let n := dt * accfac / avg_time in
  n * dzbyear zb' zb dt accfac + (1 - n) * dzbavg0.
