(** Independent specification vocabulary for the configuration properties. *)
From Verif Require Import Base Config_Model.
Local Open Scope char_scope.
Local Open Scope nat_scope.

(** Whitespace, as a predicate on characters. *)
Definition space (c : ascii) : Prop :=
  let n := nat_of_ascii c in (9 <= n <= 13) \/ (28 <= n <= 32).

(** [s] is [raw] with the whitespace around it removed. *)
Definition trimmed (raw s : text) : Prop :=
  exists a b, raw = a ++ s ++ b /\ Forall space a /\ Forall space b /\
    (forall c s', s = c :: s' -> ~ space c) /\ (forall c s', s = s' ++ [c] -> ~ space c).

(** A comment line: its first visible character is a percent sign. *)
Definition comment_line (line : text) : Prop :=
  exists a r, line = a ++ "%" :: r /\ Forall space a.

(** [line] assigns the raw text [val] to parameter [k]: text up to the first equal sign, trimmed,
    is the name; text from there to the next equal sign (or the end) is the raw value. *)
Definition assigns (line k val : text) : Prop :=
  ~ comment_line line /\
  exists key, ~ In "=" key /\ trimmed key k /\ ~ In "=" val /\
    (line = key ++ "=" :: val \/ exists more, line = key ++ "=" :: val ++ "=" :: more).

(** The last assignment of [k] in [ls] has raw value [val]. *)
Definition last_assignment (ls : list text) (k val : text) : Prop :=
  exists ls1 line ls2, ls = ls1 ++ line :: ls2 /\ assigns line k val /\
    forall l v, In l ls2 -> ~ assigns l k v.

Definition never_assigned (ls : list text) (k : text) : Prop :=
  forall l v, In l ls -> ~ assigns l k v.

(** Parameters post-processed after reading. *)
Definition derived_parameters : list text :=
  [txt "grain_dist"; txt "grain_size"; txt "output_file"; txt "h"; txt "process_fences"; txt "nsavetimes"].

(** A single visible word without comment sign. *)
Definition word (s : text) : Prop := s <> [] /\ Forall (fun c => ~ space c /\ c <> "%") s.

(** Characters of a number written with digits and dots. *)
Definition numeric_char (c : ascii) : Prop :=
  (48 <= nat_of_ascii c <= 57) \/ c = ".".
(** Looks like a number: optional minus sign, then one or more digits and dots. *)
Definition looks_numeric (s : text) : Prop :=
  exists u, u <> [] /\ Forall numeric_char u /\ (s = u \/ s = "-" :: u).
Definition digit (c : ascii) : Prop := 48 <= nat_of_ascii c <= 57.
(** A well-formed decimal number: optional minus, digits with at most one dot, at least one digit. *)
Definition well_formed_number (s : text) : Prop :=
  exists u, (s = u \/ s = "-" :: u) /\
    ((u <> [] /\ Forall digit u) \/
     exists a b, u = a ++ "." :: b /\ Forall digit a /\ Forall digit b /\ (a <> [] \/ b <> [])).

(** A number written with digits and dots that is not a decimal number, somewhere in the text. *)
Definition malformed_number (s : text) : Prop := looks_numeric s /\ ~ well_formed_number s.

(** Value of a numeral, least significant digit last. *)
Fixpoint numeral_value (s : text) : Z :=
  match s with
  | [] => 0
  | c :: s' => (Z.of_nat (nat_of_ascii c) - 48) * 10 ^ Z.of_nat (length s') + numeral_value s'
  end.
(** [s] is the [n]-th backup name of [fname]: the name, a tilde and a three-digit number. *)
Definition backup_candidate (fname : text) (n : Z) (s : text) : Prop :=
  exists d, length d = 3 /\ Forall digit d /\ numeral_value d = n /\ s = fname ++ "~" :: d.

(** Text that stands for itself in a configuration file. *)
Definition plain_text (files : fs) (pf : bool) (s : text) : Prop :=
  word s /\ ~ In "=" s /\ s <> ["T"] /\ s <> ["F"] /\ ~ looks_numeric s /\
  (forall r, s <> txt "None" ++ r) /\ (pf = true -> files s = None).
(** Values that survive writing and reading: None, booleans, integers, plain words. *)
Definition plain_value (files : fs) (pf : bool) (v : value) : Prop :=
  match v with
  | VNone | VBool _ | VInt _ => True
  | VStr s => plain_text files pf s
  | _ => False
  end.
Definition plain_key (k : text) : Prop := word k /\ ~ In "=" k.

(** [q] has at most [k] decimals. *)
Definition decimals (k : nat) (q : Q) : Prop := exists m : Z, (q * inject_Z (10 ^ Z.of_nat k) == inject_Z m)%Q.
