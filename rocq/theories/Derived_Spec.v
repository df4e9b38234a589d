(** Independent specification vocabulary for parameters that are filled in from other parameters. *)
From Coq Require Import QArith.
From Verif Require Import Base Config_Model Config_Spec.

(** The value that the user gives to parameter [k]: the last one in the file, or else the default. *)
Definition given (files : fs) (parse_files : bool) (defaults : dict value) (load_defaults : bool)
    (ls : list text) (k : text) (v : value) : Prop :=
  (exists raw, last_assignment ls k raw /\ parse_value files raw parse_files false = Ok v) \/
  (never_assigned ls k /\ load_defaults = true /\ dget k defaults = Some v).

(** Single values that stand for "not given": None, False, zero, an empty text. *)
Inductive nothing : value -> Prop :=
| nothing_none : nothing VNone
| nothing_false : nothing (VBool false)
| nothing_zero : nothing (VInt 0)
| nothing_zero_float q : (q == 0)%Q -> nothing (VFloat q)
| nothing_text : nothing (VStr []).
(** Single values that stand for something. *)
Inductive something : value -> Prop :=
| something_true : something (VBool true)
| something_int n : n <> 0%Z -> something (VInt n)
| something_float q : ~ (q == 0)%Q -> something (VFloat q)
| something_text s : s <> [] -> something (VStr s).
(** The same with lists, that may be empty or have a single element. *)
Definition unset (v : value) : Prop := nothing v \/ v = VList [] \/ exists x, v = VList [x] /\ nothing x.
Definition is_set (v : value) : Prop := something v \/ exists x, v = VList [x] /\ something x.
(** Values that are neither: lists of more elements and arrays from files. *)
Definition ambiguous (v : value) : Prop :=
  (exists t, v = VFile t) \/ exists x y l, v = VList (x :: y :: l).

(** [v] as an array: nothing for None, one element for a single value. *)
Inductive array_of : value -> value -> Prop :=
| array_none : array_of VNone (VList [])
| array_bool b : array_of (VBool b) (VList [VBool b])
| array_int n : array_of (VInt n) (VList [VInt n])
| array_float q : array_of (VFloat q) (VList [VFloat q])
| array_text s : array_of (VStr s) (VList [VStr s])
| array_list l : array_of (VList l) (VList l)
| array_file t : array_of (VFile t) (VFile t).

(** The number that [v] is; booleans count as 0 and 1. *)
Inductive number : value -> Q -> Prop :=
| number_int n : number (VInt n) (inject_Z n)
| number_float q : number (VFloat q) q
| number_false : number (VBool false) 0
| number_true : number (VBool true) 1.

(** [n] is the integer part of [x], towards zero. *)
Definition integer_part (x : Q) (n : Z) : Prop :=
  ((0 <= x)%Q -> (inject_Z n <= x /\ x < inject_Z (n + 1))%Q) /\
  ((x <= 0)%Q -> (inject_Z (n - 1) < x /\ x <= inject_Z n)%Q).

(** The parameters that are filled in when they are not set. *)
Definition filled_in : list text := [txt "output_file"; txt "h"; txt "process_fences"; txt "nsavetimes"].

(** A word that is not read as a boolean, a number or None. *)
Definition name_like (s : text) : Prop :=
  word s /\ s <> ["T"%char] /\ s <> ["F"%char] /\ ~ looks_numeric s /\ forall r, s <> txt "None" ++ r.

(** The text of a list: the first item, then for each further item one blank, [n] more blanks and the item. *)
Fixpoint items (w : text) (l : list (nat * text)) : text :=
  match l with
  | [] => w
  | (n, w') :: l' => w ++ repeat " "%char (S n) ++ items w' l'
  end.
(** The values of the items, with [n] times None for [n] blanks too many. *)
Definition with_gaps (v : value) (l : list (nat * value)) : list value :=
  v :: flat_map (fun x => repeat VNone (fst x) ++ [snd x]) l.
(** The file system has changed only in what the files contain or in which files there are. *)
Definition same_text (f1 f2 : fs) (raw : text) : Prop :=
  parse_value f1 raw false false = parse_value f2 raw false false.
