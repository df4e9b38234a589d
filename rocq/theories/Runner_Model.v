(** Model of the output side of AeoLiSRunner, aeolis/model.py, and of the time axis of the output
    file, aeolis/netcdf.py. Grids are represented by the value of one arbitrary cell: all statistics
    are computed cell by cell. What a time step does to the grids is an input. *)
From Verif Require Import Base Num Config_Model State_Model.
Open Scope Q_scope.

(** Numbers, the infinities of model.py:2743-2744, and Python's None. *)
Inductive val := Num (q : Q) | PosInf | NegInf | Nothing.

(** model.py:2743-2746: accumulators; [None] is +inf in [a_min] and -inf in [a_max]. *)
Record acc := { a_min : option Q; a_max : option Q; a_var : Q; a_sum : Q }.
Definition fresh_acc : acc := {| a_min := None; a_max := None; a_var := 0; a_sum := 0 |}.

(** ** netcdf.py: the time axis *)
Record ncfile := { nc_time : list Q; nc_bounds : list (Q * Q); nc_vars : dict (list val) }.

(** [nc.variables[k][i,...] = v] for the slice [i] just added; slices never written hold the fill value. *)
Definition put (i : nat) (v : val) (l : list val) : list val := l ++ repeat Nothing (i - length l) ++ [v].

(** netcdf.py:350-354: a variable missing in the file raises KeyError. *)
Fixpoint put_all (i : nat) (vs : dict val) (d : dict (list val)) : result (dict (list val)) :=
  match vs with
  | [] => Ok d
  | (k, v) :: r => match dget k d with
                   | None => Raise KeyError
                   | Some l => put_all i r (dset k (put i v l) d)
                   end
  end.

(** netcdf.py:348-356 [append] and 373-376 [set_bounds]. *)
Definition append (time : Q) (vs : dict val) (f : ncfile) : result ncfile :=
  let i := length (nc_time f) in
  let* vars := put_all i vs (nc_vars f) in
  let times := nc_time f ++ [time] in
  let lower := match i with O => 0 | S j => nth j times 0 end in
  Ok {| nc_time := times; nc_bounds := nc_bounds f ++ [(lower, time)]; nc_vars := vars |}.

(** ** The runner: model.py:2390-2401. [clear] is an attribute that does not exist before the
    first call of get_var ([None]). [outvars] is p['_output_vars'], [times] is p['output_times'],
    [restart] is p['restart'] when it is set. *)
Record config := { outvars : dict (list (option text)); times : Q; restart : option Q }.
Record runner := {
  grids : model Q; rt : Q; rdt : Q; tout : Q; trestart : Q; n : nat;
  clear : option bool; o : dict acc; file : ncfile }.

Definition set_clear (b : bool) (r : runner) : runner :=
  {| grids := grids r; rt := rt r; rdt := rdt r; tout := tout r; trestart := trestart r; n := n r;
     clear := Some b; o := o r; file := file r |}.
Definition set_o (d : dict acc) (r : runner) : runner :=
  {| grids := grids r; rt := rt r; rdt := rdt r; tout := tout r; trestart := trestart r; n := n r;
     clear := clear r; o := d; file := file r |}.
Definition set_n (m : nat) (r : runner) : runner :=
  {| grids := grids r; rt := rt r; rdt := rdt r; tout := tout r; trestart := trestart r; n := m;
     clear := clear r; o := o r; file := file r |}.

Definition qn (m : nat) : Q := inject_Z (Z.of_nat m).

(** model.py:2574-2587 [get_statistic]; an unknown variable raises KeyError, an unknown statistic
    gives None. *)
Definition get_statistic (r : runner) (var stat : text) : result val :=
  let entry := match dget var (o r) with Some a => Ok a | None => Raise KeyError end in
  if text_eqb stat (txt "min") then
    let* a := entry in Ok (match a_min a with Some q => Num q | None => PosInf end)
  else if text_eqb stat (txt "max") then
    let* a := entry in Ok (match a_max a with Some q => Num q | None => NegInf end)
  else if text_eqb stat (txt "sum") then let* a := entry in Ok (Num (a_sum a))
  else if text_eqb stat (txt "avg") then
    let* a := entry in
    Ok (Num (if Nat.ltb 0 (n r) then a_sum a / qn (n r) else 0))
  else if text_eqb stat (txt "var") then
    let* a := entry in
    Ok (Num (if Nat.ltb 1 (n r) then (a_var a - a_sum a * a_sum a / qn (n r)) / qn (n r - 1) else 0))
  else Ok Nothing.

(** model.py:420-430 through State_Model; a parameter is returned as its value. *)
Definition base_get (r : runner) (var : text) : result val :=
  let* v := State_Model.get_var Qdiv (grids r) var in
  Ok (match v with Some q => Num q | None => Nothing end).

(** [var, stat = var.split(c)]: exactly two parts. *)
Definition split2 (c : ascii) (var : text) : result (text * text) :=
  match split_char c var with
  | [a; b] => Ok (a, b)
  | _ => Raise ValueError
  end.

(** model.py:2627-2642 [get_var]: the value; the attribute [clear] is set first (see [get]). *)
Definition lookup_var (r : runner) (var : text) : result val :=
  let dotted (var : text) : result val :=
    if has_char "."%char var then
      let* vs := split2 "."%char var in
      if dmem (fst vs) (o r) then get_statistic r (fst vs) (snd vs) else base_get r (fst vs)
    else base_get r var in
  if has_char "_"%char var then
    let* vs := split2 "_"%char var in
    if dmem (fst vs) (o r) then get_statistic r (fst vs) (snd vs) else dotted (fst vs)
  else dotted var.
Definition get (var : text) (c : bool) (r : runner) : result (val * runner) :=
  let r' := set_clear c r in
  let* v := lookup_var r' var in Ok (v, r').

(** model.py:2741-2748 [output_clear]: get_var_shape gives -1 for a name that is not a grid, and
    np.zeros(-1) raises ValueError. *)
Fixpoint clear_all (keys : list text) (r : runner) : result runner :=
  match keys with
  | [] => Ok r
  | k :: ks => if dmem k (vals (s (grids r))) then clear_all ks (set_o (dset k fresh_acc (o r)) r)
               else Raise ValueError
  end.
Definition output_clear (c : config) (r : runner) : result runner :=
  let* r' := clear_all (dkeys (outvars c)) r in Ok (set_n 0 r').

Definition has_ext (e : text) (exts : list (option text)) : bool :=
  existsb (fun x => match x with Some y => text_eqb y e | None => false end) exts.
Definition omin (a : option Q) (v : Q) : option Q := Some (match a with Some q => qmin q v | None => v end).
Definition omax (a : option Q) (v : Q) : option Q := Some (match a with Some q => qmax q v | None => v end).
(** model.py:2762-2769 *)
Definition add_value (exts : list (option text)) (v : Q) (a : acc) : acc :=
  {| a_min := if has_ext (txt "min") exts then omin (a_min a) v else a_min a;
     a_max := if has_ext (txt "max") exts then omax (a_max a) v else a_max a;
     a_var := if has_ext (txt "var") exts then a_var a + v * v else a_var a;
     a_sum := if has_ext (txt "sum") exts || has_ext (txt "avg") exts || has_ext (txt "var") exts
              then a_sum a + v else a_sum a |}.

(** model.py:2760-2775 [output_update]; None has no method copy (AttributeError). The update of the
    grid q (model.py:2772) is left out. *)
Fixpoint update_all (ovs : dict (list (option text))) (r : runner) : result runner :=
  match ovs with
  | [] => Ok r
  | (k, exts) :: rest =>
      let* vr := get k false r in
      match fst vr with
      | Num v => match dget k (o (snd vr)) with
                 | None => Raise KeyError
                 | Some a => update_all rest (set_o (dset k (add_value exts v a) (o (snd vr))) (snd vr))
                 end
      | PosInf | NegInf => Raise ValueError     (* not reachable: [k] is not a statistic *)
      | Nothing => Raise AttributeError
      end
  end.
Definition output_update (c : config) (r : runner) : result runner :=
  let* r' := update_all (outvars c) r in Ok (set_n (S (n r')) r').

(** What AeoLiS.update leaves behind: new grids, time and time step. *)
Record after := { new_grids : model Q; new_t : Q; new_dt : Q }.
Definition apply_after (a : after) (r : runner) : runner :=
  {| grids := new_grids a; rt := new_t a; rdt := new_dt a; tout := tout r; trestart := trestart r; n := n r;
     clear := clear r; o := o r; file := file r |}.

(** model.py:2670-2675 [update] *)
Definition update (c : config) (a : after) (r : runner) : result runner :=
  match clear r with
  | None => Raise AttributeError
  | Some b =>
      let* r1 := if b || Qltb (rdt r) (-1)
                 then let* r' := output_clear c r in Ok (set_clear false r')
                 else Ok r in
      output_update c (apply_after a r1)
  end.

(** model.py:2788-2796: the values written, reading plain variables through get_var (clear=False). *)
Fixpoint collect_exts (k : text) (exts : list (option text)) (r : runner) (d : dict val)
  : result (dict val * runner) :=
  match exts with
  | [] => Ok (d, r)
  | None :: es =>
      let* vr := get k false r in
      match fst vr with
      | Nothing => Raise AttributeError
      | v => collect_exts k es (snd vr) (dset k v d)
      end
  | Some e :: es =>
      let* v := get_statistic r k e in
      collect_exts k es r (dset (k ++ "_"%char :: e) v d)
  end.
Fixpoint collect (ovs : dict (list (option text))) (r : runner) (d : dict val) : result (dict val * runner) :=
  match ovs with
  | [] => Ok (d, r)
  | (k, exts) :: rest => let* dr := collect_exts k exts r d in collect rest (snd dr) (fst dr)
  end.

(** model.py:2786 *)
Definition due (c : config) (r : runner) : bool := Qle_bool (times c) (rt r - tout r) || Qeq_bool (rt r) 0.

(** model.py:2786-2801: the output part of [output_write]. *)
Definition write_output (c : config) (r : runner) : result runner :=
  if due c r then
    let* dr := collect (outvars c) r [] in
    let r1 := snd dr in
    let* f := append (rt r1) (fst dr) (file r1) in
    let* r2 := output_clear c {| grids := grids r1; rt := rt r1; rdt := rdt r1; tout := tout r1;
                                 trestart := trestart r1; n := n r1; clear := clear r1; o := o r1; file := f |} in
    Ok {| grids := grids r2; rt := rt r2; rdt := rdt r2; tout := rt r2; trestart := trestart r2; n := n r2;
          clear := clear r2; o := o r2; file := file r2 |}
  else Ok r.
(** model.py:2803-2805: a zero value of p['restart'] counts as unset; the dump itself is
    model.py:2869-2880, to a file opened in text mode. *)
Definition write_restart (c : config) (r : runner) : result runner :=
  match restart c with
  | None => Ok r
  | Some q =>
      if negb (Qeq_bool q 0) && Qle_bool q (rt r - trestart r) then
        let* _ := pickle_to_file Text (grids r) in
        Ok {| grids := grids r; rt := rt r; rdt := rdt r; tout := tout r; trestart := rt r; n := n r;
              clear := clear r; o := o r; file := file r |}
      else Ok r
  end.
Definition output_write (c : config) (r : runner) : result runner :=
  let* r1 := write_output c r in write_restart c r1.

(** Calls a user or the time loop makes. *)
Inductive call := Update (a : after) | Get (var : text) (b : bool) | Write.
Definition do_call (c : config) (x : call) (r : runner) : result runner :=
  match x with
  | Update a => update c a r
  | Get var b => let* vr := get var b r in Ok (snd vr)
  | Write => output_write c r
  end.
Fixpoint do_calls (c : config) (xs : list call) (r : runner) : result runner :=
  match xs with
  | [] => Ok r
  | x :: xs' => let* r' := do_call c x r in do_calls c xs' r'
  end.

(** model.py:2696-2730 [output_init], the parsing of the requested variables ([vars] is
    p['output_vars'], [types] is p['output_types']). *)
Definition parse_outvar (var : text) : result (text * option text) :=
  if has_char "_"%char var then let* vs := split2 "_"%char var in Ok (fst vs, Some (snd vs))
  else if has_char "."%char var then let* vs := split2 "."%char var in Ok (fst vs, Some (snd vs))
  else Ok (var, None).
Definition opt_eqb (a b : option text) : bool :=
  match a, b with Some x, Some y => text_eqb x y | None, None => true | _, _ => false end.
Definition add_ext (exts : list (option text)) (e : option text) : list (option text) :=
  if existsb (opt_eqb e) exts then exts else exts ++ [e].
Definition add_outvar (types : list text) (d : dict (list (option text))) (var : text)
  : result (dict (list (option text))) :=
  let* ve := parse_outvar var in
  let (v0, e) := ve in
  let exts := match dget v0 d with Some l => l | None => [] end in
  Ok (dset v0 (fold_left add_ext (e :: map Some types) exts) d).
Fixpoint output_vars (types : list text) (vars : list text) (d : dict (list (option text)))
  : result (dict (list (option text))) :=
  match vars with
  | [] => Ok d
  | v :: vs => let* d' := add_outvar types d v in output_vars types vs d'
  end.

(** The runner after initialisation (model.py:2390-2401, 2644-2654): [f] is the file created by
    netcdf.initialize, with one variable per requested statistic of an existing grid
    (netcdf.py:239-262) and no time slices. *)
Definition created_vars (m : model Q) (ovs : dict (list (option text))) : dict (list val) :=
  fold_left (fun d ke =>
     if dmem (fst ke) (vals (s m)) then
       fold_left (fun d e => dset (match e with None => fst ke | Some x => fst ke ++ "_"%char :: x end) [] d) (snd ke) d
     else d) ovs [].
Definition initialize (c : config) (tstart : Q) (m : model Q) : result runner :=
  output_clear c
    {| grids := m; rt := tstart; rdt := 0; tout := 0; trestart := 0; n := 0; clear := None; o := [];
       file := {| nc_time := []; nc_bounds := []; nc_vars := created_vars m (outvars c) |} |}.
