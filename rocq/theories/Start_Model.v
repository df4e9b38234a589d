(** Model of how a run starts and ends: /repo/aeolis/model.py:2378-2423 [AeoLiSRunner.__init__], 2426-2555 [run], [set_configfile],
    [set_params], 2678-2693 [write_params], 2808-2833 [load_hotstartfiles], 2836-2866 [load_restartfile], 2883-2919 [parse_callback],
    2987-3007 [print_stats], 185-203 and 2259-2272 [get_count], /repo/aeolis/inout.py:175-221 [check_configuration], and the assignments
    of the grid and bed files, gridparams.py:62-111 and bed.py:70-71. What happens between the start and the end of the time loop is an
    input. Logging is left out. *)
From Verif Require Import Base Config_Model State_Model.

(** ** Files *)
(** An absolute directory or file: the names on the way. *)
Definition place := list text.
(** A path as text: absolute if it begins with a slash; '.', '..' and links are not modelled. *)
Definition names (t : text) : place := filter (fun n => negb (text_eqb n [])) (split_char "/" t).
Definition absolute (t : text) : bool := starts_with (txt "/") t.
Definition resolve (cwd : place) (t : text) : place := if absolute t then names t else cwd ++ names t.
(** A file: what read_configfile makes of it, and the names that it defines when it is loaded as a Python module. *)
Record file := { as_config : dict value; as_module : result (list text) }.
(** The working directory and the files. *)
Record world := { cwd : place; disk : place -> option file }.
Definition exists_at (w : world) (p : place) : bool := match disk w p with Some _ => true | None => false end.
Definition change_dir (d : place) (w : world) : world := {| cwd := d; disk := disk w |}.
Fixpoint place_eqb (a b : place) : bool :=
  match a, b with [], [] => true | x :: a', y :: b' => text_eqb x y && place_eqb a' b' | _, _ => false end.
Definition write_file (p : place) (f : file) (w : world) : world :=
  {| cwd := cwd w; disk := fun q => if place_eqb q p then Some f else disk w q |}.

(** ** The runner *)
(** [configfile] is an absolute place (os.path.abspath of a file that exists). *)
Record runner := { configfile : place; changed : bool; params : dict value }.
(** str.upper of one character. *)
Definition upper (c : ascii) : ascii :=
  let n := nat_of_ascii c in if (97 <=? n) && (n <=? 122) then ascii_of_nat (n - 32) else c.
(** model.py:2378-2423. For the name 'DEFAULT' numpy.linspace (2419) is called with the number of points 100., which numpy (1.18 or later,
    pyproject.toml) refuses with TypeError. *)
Definition construct (w : world) (name : text) : result runner :=
  let p := resolve (cwd w) name in
  match disk w p with
  | Some f => Ok {| configfile := p; changed := false; params := as_config f |}
  | None => if text_eqb (map upper name) (txt "DEFAULT") then Raise TypeError else Raise IOError
  end.
(** model.py:2550-2555 *)
Definition set_params (kw : dict value) (r : runner) : runner :=
  match kw with
  | [] => r
  | _ => {| configfile := configfile r; changed := true; params := fold_left (fun d kv => dset (fst kv) (snd kv) d) kw (params r) |}
  end.

(** A callback: nothing, a text, a function or another object that can be called (which may lack the attribute __name__), or anything else. *)
Inductive callback := NoCallback | Named (t : text) | Callable (id : text) (has_name : bool) | NotCallable.
(** A function of a file, or an object that was passed in. *)
Inductive function := InFile (p : place) (name : text) | Object (id : text) (has_name : bool).
(** The parameter p['callback']: a text is one, everything else a configuration file can hold cannot be called. *)
Definition configured (v : option value) : result callback :=
  match v with None => Raise KeyError | Some VNone => Ok NoCallback | Some (VStr t) => Ok (Named t) | Some _ => Ok NotCallable end.
(** model.py:2902-2919 *)
Definition parse_callback (w : world) (c : callback) : result (option function) :=
  match c with
  | Named t =>
    if has_char ":" t then
      match split_char ":" t with
      | [fname; func] =>
        match (if text_eqb fname [] then None else disk w (resolve (cwd w) fname)) with
        | Some f => let* l := as_module f in
                    Ok (if mem func l then Some (InFile (resolve (cwd w) fname) func) else None)
        | None => Raise IOError
        end
      | _ => Raise ValueError
      end
    else Ok None
  | Callable id b => Ok (Some (Object id b))
  | NoCallback => Ok None
  | NotCallable => Ok None
  end.
(** model.py:2507-2508: the name is printed. *)
Definition announce (f : option function) : result unit :=
  match f with Some (Object _ false) => Raise AttributeError | _ => Ok tt end.

(** model.py:2678-2693: a backup, then [write_configfile] of Config_Model. The file would be written in the working directory. *)
Definition write_params (date : text) (r : runner) (w : world) : world * result unit :=
  if changed r then
    match disk w (configfile r) with
    | None => (w, let* _ := write_configfile false date (params r) in Ok tt)
    | Some f =>
      let dirname := removelast (configfile r) in
      match get_backupfilename (fun n => exists_at w (dirname ++ [n])) (last (configfile r) []) with
      | Raise e => (w, Raise e)
      | Ok b => (write_file (dirname ++ [b]) f w, let* _ := write_configfile false date (params r) in Ok tt)
      end
    end
  else (w, Ok tt).

(** model.py:2836-2866: an empty name counts as none; the state is read from a file opened in text mode (see [pickle_to_file]). *)
Definition load_restartfile (w : world) (restart : option text) : result bool :=
  match restart with
  | None => Ok false
  | Some [] => Ok false
  | Some t => if exists_at w (resolve (cwd w) t) then pickle_to_file Text true else Raise IOError
  end.

(** What a run is made with: its parameters and the function that is called in each time step. *)
Record used := { used_params : dict value; used_callback : option function }.
Section Run.
(** [loop]: from the end of the initialization to print_stats, with the working directory in which it runs. *)
Context (date : text) (loop : world -> used -> result unit).
(** model.py:2497-2529 after the working directory is set. *)
Definition body (r : runner) (cb : callback) (restart : option text) (w : world) : world * result used :=
  let '(w1, written) := write_params date r w in
  (w1, let* _ := written in
       let* c := match cb with NoCallback => configured (dget (txt "callback") (params r)) | _ => Ok cb end in
       let* f := parse_callback w1 c in
       let* _ := announce f in
       match disk w1 (configfile r) with
       | None => Raise IOError
       | Some conf =>
         let* _ := load_restartfile w1 restart in
         let u := {| used_params := as_config conf; used_callback := f |} in
         let* _ := loop w1 u in Ok u
       end).
(** model.py:2426-2537: only after success the working directory is set back. *)
Definition run (r : runner) (cb : callback) (restart : option text) (w : world) : world * result used :=
  let '(w', res) := body r cb restart (change_dir (removelast (configfile r)) w) in
  (match res with Ok _ => change_dir (cwd w) w' | Raise _ => w' end, res).
End Run.
(** console.py:113-144: aeolis run config [--callback ...] [--restart ...]. *)
Definition command (date : text) (loop : world -> used -> result unit) (config : text) (cb restart : option text) (w : world) : world * result used :=
  match construct w config with
  | Raise e => (w, Raise e)
  | Ok r => run date loop r (match cb with None => NoCallback | Some t => Named t end) restart w
  end.

(** ** Statistics of a run: model.py:2987-3007, 2259-2272. *)
Definition get_count (name : text) (counts : dict nat) : nat := match dget name counts with Some n => n | None => 0 end.
(** The printed averages: matrix solves for each time step, and the time step. *)
Definition print_stats (tstop : Q) (counts : dict nat) : result (Q * Q) :=
  let n := get_count (txt "time") counts in
  if n =? 0 then Raise ZeroDivisionError
  else Ok (inject_Z (Z.of_nat (get_count (txt "matrixsolve") counts)) / inject_Z (Z.of_nat n), tstop / inject_Z (Z.of_nat n))%Q.

(** ** Input files *)
(** The value of a parameter for a file: not given; a name (of no readable file); a number; or an array of zero, one or two dimensions
    (numpy.loadtxt gives one dimension for a single row and for a single column, none for a single number). *)
Inductive given := Absent | Unread (t : text) | Number (q : Q) | Array0 (q : Q) | Array1 (l : list Q) | Array2 (rows cols : nat) (v : nat -> nat -> Q).
(** utils.py:59-67 *)
Definition isarray (g : given) : bool := match g with Array0 _ | Array1 _ | Array2 _ _ _ => true | _ => false end.
(** A table with at least [n] columns. *)
Definition table (n : nat) (g : given) : bool := match g with Array2 _ c _ => n <=? c | _ => false end.
Record inputs := { xgrid : given; ygrid : given; bed : given; wind : given; tide : given; wave : given; meteo : given; conf_ny : nat }.
(** inout.py:175-221; the warnings are left out. [conf_ny] is the number of the configuration file, not that of the grid. *)
Definition check_configuration (i : inputs) : result unit :=
  if negb (isarray (xgrid i)) || negb (isarray (bed i)) || (negb (isarray (ygrid i)) && (0 <? conf_ny i)) then Raise ValueError
  else if isarray (wind i) && negb (table 3 (wind i)) then Raise ValueError
  else if isarray (tide i) && negb (table 2 (tide i)) then Raise ValueError
  else if isarray (meteo i) && negb (table 6 (meteo i)) then Raise ValueError
  else Ok tt.
(** model.py:190-203: the numbers of rows and columns, ny + 1 and nx + 1; a name or a number has no attribute ndim. *)
Definition grid_size (x : given) : result (nat * nat) :=
  match x with
  | Array2 r c _ => Ok (r, c)
  | Array1 l => Ok (1, length l)
  | Array0 _ => Raise TypeError
  | _ => Raise AttributeError
  end.
(** A cell of a grid: a number, or NaN ([None]). Assignment of a value to all cells of a grid of floats with [rows] rows and [cols]
    columns, with numpy's broadcasting: None becomes NaN, a text is refused. *)
Definition field := nat -> nat -> option Q.
Definition fits (n m : nat) : bool := (n =? m) || (n =? 1).
Definition pick (n i : nat) : nat := if n =? 1 then 0 else i.
Definition assign (rows cols : nat) (g : given) : result field :=
  match g with
  | Absent => Ok (fun _ _ => None)
  | Unread _ => Raise ValueError
  | Number q | Array0 q => Ok (fun _ _ => Some q)
  | Array1 l => if fits (length l) cols then Ok (fun _ j => nth_error l (pick (length l) j)) else Raise ValueError
  | Array2 r c v => if fits r rows && fits c cols then Ok (fun i j => Some (v (pick r i) (pick c j))) else Raise ValueError
  end.
(** model.py:185-203, gridparams.py:62, 95-111 and bed.py:70: coordinates and bed level; the y coordinates of a single row are zero. *)
Record terrain := { rows : nat; cols : nat; tx : field; ty : field; tz : field }.
Definition set_up (i : inputs) : result terrain :=
  let* _ := check_configuration i in
  let* n := grid_size (xgrid i) in
  let* x := assign (fst n) (snd n) (xgrid i) in
  let* y := if fst n =? 1 then Ok (fun _ _ => Some 0%Q) else assign (fst n) (snd n) (ygrid i) in
  let* z := assign (fst n) (snd n) (bed i) in
  Ok {| rows := fst n; cols := snd n; tx := x; ty := y; tz := z |}.

(** ** Hotstart files: model.py:2808-2833. A variable is its shape and its values in row-major order; the files found, with their numbers. *)
Record grid := { gshape : list nat; gvals : list Q }.
Definition hotstart1 (f : text * list Q) (st : mstate grid) : result (mstate grid) :=
  match dget (fst f) (vals st) with
  | None => Ok st
  | Some g =>
    if length (snd f) =? fold_right Nat.mul 1 (gshape g)
    then Ok (set_immutable (fst f) (setitem (fst f) {| gshape := gshape g; gvals := snd f |} st))
    else Raise ValueError
  end.
Fixpoint load_hotstartfiles (fs : list (text * list Q)) (st : mstate grid) : result (mstate grid) :=
  match fs with [] => Ok st | f :: fs' => let* st' := hotstart1 f st in load_hotstartfiles fs' st' end.
