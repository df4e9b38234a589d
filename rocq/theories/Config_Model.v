(** Model of the configuration reader and writer, aeolis/inout.py and the value
    formatter of aeolis/utils.py. Definitions only. *)
From Verif Require Import Base.
Local Open Scope char_scope.
Local Open Scope nat_scope.

(** Python [str.isspace] for ASCII: tab, LF, VT, FF, CR, 0x1c-0x1f and space.
    Simplification: characters are ASCII (Unicode whitespace and digits not modelled). *)
Definition is_space (c : ascii) : bool :=
  let n := nat_of_ascii c in
  ((9 <=? n) && (n <=? 13)) || ((28 <=? n) && (n <=? 32)).

Fixpoint lstrip (s : text) : text :=
  match s with
  | [] => []
  | c :: s' => if is_space c then lstrip s' else s
  end.

(** [str.strip()] *)
Definition strip (s : text) : text := rev (lstrip (rev (lstrip s))).

(** [c in s] *)
Definition has_char (c : ascii) (s : text) : bool := existsb (Ascii.eqb c) s.

(** [s.split(c)] for a one-character separator: always at least one piece. *)
Fixpoint split_char (c : ascii) (s : text) : list text :=
  match s with
  | [] => [[]]
  | x :: s' =>
      if Ascii.eqb c x then [] :: split_char c s'
      else match split_char c s' with
           | [] => [[x]]
           | w :: ws => (x :: w) :: ws
           end
  end.

(** [s.split(c)[0]] *)
Definition split_first (c : ascii) (s : text) : text := hd [] (split_char c s).

Definition is_digit (c : ascii) : bool :=
  let n := nat_of_ascii c in (48 <=? n) && (n <=? 57).
Definition digit_val (c : ascii) : Z := Z.of_nat (nat_of_ascii c) - 48.
Definition is_dot (c : ascii) : bool := Ascii.eqb c ".".

(** Regular expression [^-?\d+$] (inout.py:280). *)
Definition unsigned_int_re (s : text) : bool :=
  match s with [] => false | _ => forallb is_digit s end.
Definition int_re (s : text) : bool :=
  match s with
  | "-" :: s' => unsigned_int_re s'
  | _ => unsigned_int_re s
  end.

(** Regular expression [^-?[\d\.]+$] (inout.py:282). *)
Definition unsigned_float_re (s : text) : bool :=
  match s with [] => false | _ => forallb (fun c => is_digit c || is_dot c) s end.
Definition float_re (s : text) : bool :=
  match s with
  | "-" :: s' => unsigned_float_re s'
  | _ => unsigned_float_re s
  end.

(** Value of a digit string, most significant first (Python [int] on ASCII digits). *)
Definition digits_val (s : text) : Z := fold_left (fun a c => (a * 10 + digit_val c)%Z) s 0%Z.

(** [int(val)] on a string accepted by [int_re]. *)
Definition int_of (s : text) : Z :=
  match s with
  | "-" :: s' => (- digits_val s')%Z
  | _ => digits_val s
  end.

Fixpoint take_while (f : ascii -> bool) (s : text) : text :=
  match s with
  | [] => []
  | c :: s' => if f c then c :: take_while f s' else []
  end.
Fixpoint drop_while (f : ascii -> bool) (s : text) : text :=
  match s with
  | [] => []
  | c :: s' => if f c then drop_while f s' else s
  end.

Definition pow10 (n : nat) : positive := Pos.pow 10 (Pos.of_nat n).

(** Decimal literal without sign: digits, optionally a dot and more digits, at least one digit in all.
    [float(val)] raises ValueError otherwise (e.g. for "1.2.3" or "."). The model returns the exact
    decimal value as a fraction; the code rounds it to the nearest double (simplification). *)
Definition unsigned_float_of (s : text) : result Q :=
  let ip := take_while is_digit s in
  match drop_while is_digit s with
  | [] => match ip with [] => Raise ValueError | _ => Ok (inject_Z (digits_val ip)) end
  | d :: fp =>
      if is_dot d && forallb is_digit fp then
        match ip, fp with
        | [], [] => Raise ValueError
        | _, [] => Ok (inject_Z (digits_val ip))
        | _, _ => Ok (Qmake (digits_val (ip ++ fp)) (pow10 (length fp)))
        end
      else Raise ValueError
  end.
Definition float_of (s : text) : result Q :=
  match s with
  | "-" :: s' => let* q := unsigned_float_of s' in Ok (Qopp q)
  | _ => unsigned_float_of s
  end.

(** Values a configuration parameter can take. *)
Inductive value : Type :=
| VNone
| VBool (b : bool)
| VInt (n : Z)
| VFloat (q : Q)
| VStr (s : text)
| VFile (contents : list (list Q))   (* array obtained by numpy.loadtxt *)
| VList (vs : list value).           (* numpy array of parsed items; dtype coercion of mixed lists not modelled *)

Definition starts_with (pre s : text) : bool := text_eqb pre (firstn (length pre) s).

(** The file system as seen by the parser: [None] = no such file;
    [Some None] = a file numpy.loadtxt cannot read; [Some (Some m)] = a readable matrix. *)
Definition fs := text -> option (option (list (list Q))).

(** inout.py:270-297, after removal of the list case: cast one word. *)
Definition parse_word (files : fs) (parse_files : bool) (val : text) : result value :=
  if text_eqb val ["T"] || text_eqb val ["F"] then Ok (VBool (text_eqb val ["T"]))  (* 278-279 *)
  else if int_re val then Ok (VInt (int_of val))                                    (* 280-281 *)
  else if float_re val then let* q := float_of val in Ok (VFloat q)                 (* 282-283 *)
  else if starts_with (txt "None") val then Ok VNone                                (* 284-285: re.match is a prefix match *)
  else match (if parse_files then files val else None) with                         (* 286 *)
       | Some (Some m) => Ok (VFile m)                                              (* 287-293 *)
       | Some None => Ok (VStr val)                                                 (* 291-293: both dtypes failed *)
       | None => match val with
                 | [] => Ok VNone                                                   (* 294-295 *)
                 | _ => Ok (VStr val)                                               (* 296-297 *)
                 end
       end.

Fixpoint mapM {A B} (f : A -> result B) (l : list A) : result (list B) :=
  match l with
  | [] => Ok []
  | x :: l' => let* y := f x in let* ys := mapM f l' in Ok (y :: ys)
  end.

(** inout.py:271-274 *)
Definition clean (val : text) : text :=
  strip (if has_char "%" val then split_first "%" val else val).

(** inout.py:224-297 [parse_value]. The recursive call of line 277 is made with the default
    [parse_files=True], [force_list=False], on words without spaces, so that it cannot recurse
    further and is [parse_word] of the cleaned word. *)
Definition parse_value (files : fs) (val : text) (parse_files force_list : bool) : result value :=
  let v := clean val in
  if has_char " " v || force_list
  then let* vs := mapM (fun x => parse_word files true (clean x)) (split_char " " v) in Ok (VList vs)
  else parse_word files parse_files v.

(** inout.py:93-95: one line of the file. Python unpacks the first two pieces around '='. *)
Definition read_line (files : fs) (parse_files : bool) (p : dict value) (line : text)
  : result (dict value) :=
  if has_char "=" line && negb (starts_with ["%"] (strip line)) then
    match split_char "=" line with
    | key :: val :: _ => let* v := parse_value files val parse_files false in
                         Ok (dset (strip key) v p)
    | _ => Raise ValueError
    end
  else Ok p.

Fixpoint read_lines (files : fs) (parse_files : bool) (p : dict value) (ls : list text)
  : result (dict value) :=
  match ls with
  | [] => Ok p
  | l :: ls' => let* p' := read_line files parse_files p l in read_lines files parse_files p' ls'
  end.

(** Python truth value; an array of two or more elements raises ValueError. Arrays obtained from
    files and lists are arrays. *)
Definition truthy (v : value) : result bool :=
  match v with
  | VNone => Ok false
  | VBool b => Ok b
  | VInt n => Ok (negb (n =? 0)%Z)
  | VFloat q => Ok (negb (Qeq_bool q 0))
  | VStr s => Ok (match s with [] => false | _ => true end)
  | VFile _ => Raise ValueError
  | VList [] => Ok false
  | VList [VNone] => Ok false
  | VList [VBool b] => Ok b
  | VList [VInt n] => Ok (negb (n =? 0)%Z)
  | VList [VFloat q] => Ok (negb (Qeq_bool q 0))
  | VList [VStr s] => Ok (match s with [] => false | _ => true end)
  | VList _ => Raise ValueError
  end.

(** utils.py:48-56 [makeiterable] on configuration values. *)
Definition makeiterable (v : value) : value :=
  match v with
  | VFile _ | VList _ => v
  | VNone => VList []
  | _ => VList [v]
  end.

Definition lookup (k : text) (p : dict value) : result value :=
  match dget k p with Some v => Ok v | None => Raise KeyError end.

(** [os.path.splitext(configfile)[0] + '.nc'] is passed in as [ncname]. *)
Definition finish_grain (p : dict value) : result (dict value) :=    (* inout.py:100-103 *)
  match dget (txt "grain_dist") p with
  | None => Ok p
  | Some v => let p1 := dset (txt "grain_dist") (makeiterable v) p in
              let* g := lookup (txt "grain_size") p1 in
              Ok (dset (txt "grain_size") (makeiterable g) p1)
  end.
Definition finish_output (ncname : text) (p : dict value) : result (dict value) :=  (* 106-107 *)
  match dget (txt "output_file") p with
  | None => Ok p
  | Some v => let* b := truthy v in
              if b then Ok p else Ok (dset (txt "output_file") (VStr ncname) p)
  end.
Definition finish_h (p : dict value) : result (dict value) :=        (* 110-111 *)
  match dget (txt "h") p with
  | None => Ok p
  | Some v => let* b := truthy v in
              if b then Ok p else let* z := lookup (txt "z") p in Ok (dset (txt "h") z p)
  end.
Definition finish_fences (p : dict value) : result (dict value) :=   (* 113-114 *)
  match dget (txt "process_fences") p with
  | None => Ok p
  | Some v => let* b := truthy v in
              if b then Ok p else Ok (dset (txt "process_fences") (VBool false) p)
  end.
Definition num_of (v : value) : result Q :=
  match v with
  | VInt n => Ok (inject_Z n)
  | VFloat q => Ok q
  | VBool b => Ok (if b then 1 else 0)%Q
  | _ => Raise TypeError
  end.
(** Python [int(x)] truncates towards zero. *)
Definition Qtrunc (q : Q) : Z := Z.quot (Qnum q) (Zpos (Qden q)).
Definition finish_nsave (p : dict value) : result (dict value) :=    (* 117-118 *)
  match dget (txt "nsavetimes") p with
  | None => Ok p
  | Some v => let* b := truthy v in
              if b then Ok p else
              let* i := lookup (txt "dzb_interval") p in
              let* t := lookup (txt "dt") p in
              let* qi := num_of i in let* qt := num_of t in
              if Qeq_bool qt 0 then Raise ZeroDivisionError
              else Ok (dset (txt "nsavetimes") (VInt (Qtrunc (qi / qt))) p)
  end.

(** inout.py:48-120 [read_configfile]. [file] is the list of lines, [None] if it does not exist. *)
Definition read_configfile (files : fs) (ncname : text) (defaults : dict value)
    (file : option (list text)) (parse_files load_defaults : bool) : result (dict value) :=
  let p0 := if load_defaults then defaults else [] in
  match file with
  | None => Raise IOError
  | Some ls =>
      let* p1 := read_lines files parse_files p0 ls in
      let* p2 := finish_grain p1 in
      let* p3 := finish_output ncname p2 in
      let* p4 := finish_h p3 in
      let* p5 := finish_fences p4 in
      finish_nsave p5
  end.

(** Decimal digits of a natural number, most significant first; fuel = number of bits. *)
Definition digit_char (n : Z) : ascii := ascii_of_nat (Z.to_nat (n + 48)).
Fixpoint digits_aux (fuel : nat) (n : Z) (acc : text) : text :=
  match fuel with
  | O => acc
  | S f => let acc' := digit_char (n mod 10) :: acc in
           if (n / 10 =? 0)%Z then acc' else digits_aux f (n / 10) acc'
  end.
Definition print_nat (n : Z) : text := digits_aux (S (Z.to_nat (Z.log2 n))) n [].
(** ['%d' % val] *)
Definition print_int (n : Z) : text :=
  if (n <? 0)%Z then "-" :: print_nat (- n) else print_nat n.

(** ['%0.kf' % val]: [k] decimals, rounded half to even on the exact value (the double's exact
    value in the code). *)
Definition Qround_half_even (q : Q) : Z :=
  let f := Qfloor q in
  let r := (q - inject_Z f)%Q in
  if Qle_bool r (1#2) then
    (if Qeq_bool r (1#2) then (if Z.even f then f else f + 1) else f)
  else f + 1.
Definition pad_left (c : ascii) (n : nat) (s : text) : text := repeat c (n - length s) ++ s.
Definition print_fixed (k : nat) (q : Q) : text :=
  let neg := negb (Qle_bool 0 q) in
  let a := if neg then Qopp q else q in
  let m := Qround_half_even (a * inject_Z (Z.pow 10 (Z.of_nat k))) in
  let ip := print_nat (m / Z.pow 10 (Z.of_nat k)) in
  let fp := pad_left "0" k (print_nat (m mod Z.pow 10 (Z.of_nat k))) in
  (if neg then ["-"] else []) ++ ip ++ "." :: fp.

Fixpoint join (sep : text) (l : list text) : text :=
  match l with
  | [] => []
  | [x] => x
  | x :: l' => x ++ sep ++ join sep l'
  end.

(** utils.py:198-229 [print_value]. Arrays from files are never printed by the configuration
    writer (they are saved to separate files) and are not modelled here. *)
Fixpoint print_value (fill : text) (v : value) : text :=
  match v with
  | VList vs => join [" "] (map (print_value (txt "<novalue>")) vs)   (* 215-216: fill not passed on *)
  | VFile _ => []
  | VNone => fill
  | VBool b => if b then ["T"] else ["F"]
  | VInt n => print_int n
  | VFloat q => if Qle_bool 1 q then print_fixed 2 q else print_fixed 6 q   (* 223-227 *)
  | VStr s => s
  end.

(** [isiterable] (utils.py:36-45) on configuration values: lists and arrays, not text. *)
Definition iterable (v : value) : bool := match v with VList _ | VFile _ => true | _ => false end.

(** [k.endswith('_file')], and [k.replace('_file', '')] for a key with that one occurrence
    (simplification: other occurrences of the suffix inside the key are kept). *)
Definition ends_with (suf s : text) : bool := text_eqb suf (skipn (length s - length suf) s).
Definition drop_suffix (suf s : text) : text := firstn (length s - length suf) s.

(** One line of the file, inout.py:164-172 with [fmt] of line 155: name padded on the left to [w]. *)
Definition config_line (w : nat) (kv : text * value) : text :=
  let (k, v) := kv in
  let shown := if ends_with (txt "_file") k && iterable v
               then drop_suffix (txt "_file") k ++ txt ".txt"        (* 165-169: saved separately *)
               else print_value [] v in                               (* 172 *)
  pad_left " " w k ++ txt " = " ++ shown.

(** inout.py:159-163. Padding inside the comment lines is not modelled. *)
Definition config_header (date : text) : list text :=
  [repeat "%" 70; txt "%% AeoLiS model configuration %%"; txt "%% Date: " ++ date ++ txt " %%";
   repeat "%" 70; []].

(** inout.py:123-172 [write_configfile]: line 155 evaluates [p.iterkeys()] before the file is
    opened; dictionaries of Python 3 have no such attribute. [python2] selects the dictionary API.
    Returns the lines of the file; the separate files of matrix parameters are not part of the
    result. *)
Definition write_configfile (python2 : bool) (date : text) (p : dict value) : result (list text) :=
  if negb python2 then Raise AttributeError
  else match p with
       | [] => Raise ValueError                                       (* 155: numpy.max of nothing *)
       | _ =>
         let w := fold_right Nat.max 0 (map (fun kv => length (fst kv)) p) in
         Ok (config_header date ++ map (config_line w) (sort_by fst p))   (* 164: sorted *)
       end.

(** inout.py:313: ['%s~%03d' % (fname, n)]. *)
Definition backup_name (fname : text) (n : Z) : text := fname ++ "~" :: pad_left "0" 3 (print_int n).

(** inout.py:309-320 [get_backupfilename]: the loop of lines 312-315 as recursion on the number of
    remaining candidates, then the check of line 317. *)
Fixpoint backup_loop (exists_ : text -> bool) (fname : text) (todo : nat) (n : Z) (cur : text) : text :=
  match todo with
  | O => cur
  | S k => let b := backup_name fname n in
           if exists_ b then backup_loop exists_ fname k (n + 1) b else b
  end.
Definition get_backupfilename (exists_ : text -> bool) (fname : text) : result text :=
  let b := backup_loop exists_ fname 999 1 [] in
  if exists_ b then Raise ValueError else Ok b.

(** A directory: names with contents. inout.py:301-306 [backup]. *)
Definition dir := dict text.
Definition backup (d : dir) (fname : text) : result dir :=
  match dget fname d with
  | None => Ok d
  | Some c => let* b := get_backupfilename (fun n => dmem n d) fname in Ok (dset b c d)
  end.
