(** Independent specification vocabulary for the state and BMI properties. *)
From Coq Require Import Sorting.Sorted.
From Verif Require Import Base State_Model.

(** What a user expects of one variable, as an automaton on its own history: its value, and whether
    it is fixed. Marking a variable that has no value yet does nothing. *)
Section Key.
  Context {V : Type}.
  Definition expect1 (k : text) (st : option V * bool) (o : op V) : option V * bool :=
    let (v, fixed) := st in
    match o with
    | Assign k' x => if text_eqb k k' then (if fixed then st else (Some x, fixed)) else st
    | Immutable k' => if text_eqb k k' then (v, match v with Some _ => true | None => fixed end) else st
    | Mutable k' => if text_eqb k k' then (v, false) else st
    | Bulk _ | InPlace _ _ => st
    end.
  Definition expected (k : text) (os : list (op V)) : option V * bool :=
    fold_left (expect1 k) os (None, false).

  (** Operations that go through plain item assignment. *)
  Definition plain_op (o : op V) : Prop :=
    match o with Bulk _ | InPlace _ _ => False | _ => True end.
  (** The operation does not concern variable [k] through a bulk or in-place change, nor release it. *)
  Definition leaves (k : text) (o : op V) : Prop :=
    match o with
    | Bulk d => ~ In k (dkeys d)
    | InPlace k' _ | Mutable k' => k' <> k
    | _ => True
    end.
End Key.

(** Strict alphabetical order. *)
Definition text_lt (a b : text) : Prop := text_leb a b = true /\ a <> b.

(** Names of the state variables with two, three and four dimensions, as documented. *)
Definition declared (dims : list text) (v : text) : Prop :=
  exists names, In (dims, names) MODEL_STATE /\ exists n, In n names /\ v = txt n.

(** A name the model knows; a name whose value may be replaced: a parameter, or a grid not marked immutable. *)
Definition writable {V} (m : model V) (k : text) : Prop :=
  In k (dkeys (vals (s m))) -> In k (ismutable (s m)).
Definition known {V} (m : model V) (k : text) : Prop :=
  In k (dkeys (vals (s m))) \/ In k (dkeys (p m)).

(** The last value given to [k] in a list of (name, value) pairs, or else [dflt]. *)
Fixpoint last_value {V} (k : text) (sets : list (text * V)) (dflt : result (option V)) : result (option V) :=
  match sets with
  | [] => dflt
  | (k', v) :: r => last_value k r (if text_eqb k k' then Ok (Some v) else dflt)
  end.

(** The answers of get_var_name for the indices 0 .. n-1. *)
Definition names_upto {V} (m : model V) (n : nat) : list (result (option text)) :=
  map (fun i => get_var_name m (Z.of_nat i)) (seq 0 n).

(** The sizes given in the configuration, and the array shape documented for each kind of variable. *)
Definition sizes (p : dict nat) (ny nx nl nf : nat) : Prop :=
  dget (txt "ny") p = Some ny /\ dget (txt "nx") p = Some nx /\
  dget (txt "nlayers") p = Some nl /\ dget (txt "nfractions") p = Some nf.

Definition documented_shape (dims : list text) (ny nx nl nf : nat) (sh : list nat) : Prop :=
  (dims = dims2 /\ sh = [ny + 1; nx + 1]) \/ (dims = dims3f /\ sh = [ny + 1; nx + 1; nf]) \/
  (dims = dims3l /\ sh = [ny + 1; nx + 1; nl]) \/ (dims = dims4 /\ sh = [ny + 1; nx + 1; nl; nf]).

(** Some table declares a grid of this name. *)
Definition exists_var (n : text) : Prop := exists dims, declared dims n.
(** Values are arrays (by shape) or other objects, as the dictionary of weather data stored by
    hydro.interpolate (hydro.py:142-150) and the WindShear object stored by wind.initialize
    (wind.py:71-74). *)
Inductive value := Array (sh : list nat) | Object.
Definition value_shape (v : value) : option (list nat) :=
  match v with Array sh => Some sh | Object => None end.
(** Parameters that share their name with a grid. *)
Definition shadowed : list text := [txt "theta_dyn"; txt "theta_stat"; txt "germinate"; txt "lateral"].
