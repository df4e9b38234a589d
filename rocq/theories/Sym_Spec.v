(** What the symmetries of the transport say. Nothing here uses the iteration of the solver or the renormalisation of the weights. *)
From Coq Require Import QArith List Arith Permutation.
From Verif Require Import Base Num Solver_Model Solver_Spec.
Import ListNotations.
Open Scope Q_scope.

(** ** Another arrangement of the cells *)
(** Cell [place i] of one grid lies where cell [i] of the other is. *)
Definition moved (k : cfg) (row : nat -> nat) (col : nat -> nat) (i : nat) : nat := (row (i / S (nx k)) * S (nx k) + col (i mod S (nx k)))%nat.
(** The input of the other grid. *)
Definition input_at (place : nat -> nat) (d : input) : input :=
  {| Cu := fun i => Cu d (place i); Cuf := fun i => Cuf d (place i); Cu0 := fun i => Cu0 d (place i); mass := fun i => mass d (place i); lCt := fun i => lCt d (place i);
     lCu := fun i => lCu d (place i); lCuf := fun i => lCuf d (place i); lw := fun i => lw d (place i); sat := fun i => sat d (place i) |}.
(** The wind on the other grid: components multiplied by [a] and [b]. *)
Definition flow_at (row col : nat -> nat) (a b : Q) (f : flow) : flow :=
  {| us := fun r c => a * us f (row r) (col c); un := fun r c => b * un f (row r) (col c); uu := fun r c => uu f (row r) (col c);
     ds := fun r c => ds f (row r) (col c); dn := fun r c => dn f (row r) (col c) |}.
Definition weights_at (place : nat -> nat) (w : nat -> Q) : nat -> Q := fun i => w (place i).
(** Cell by cell the same result, in another arrangement. *)
Definition same_at (n : nat) (place : nat -> nat) (o o' : outcome) : Prop :=
  converged o' = converged o /\ forall i, (i < n)%nat -> ct o' i == ct o (place i) /\ pickup o' i == pickup o (place i) /\ weight o' i == weight o (place i).

(** The rows [m] further along the coast, which is closed in itself; the rows from the other side; the columns from the other side; all rows like the first. *)
Definition further (k : cfg) (m r : nat) : nat := ((r + m) mod S (ny k))%nat.
Definition other_side (k : cfg) (r : nat) : nat := (ny k - r)%nat.
Definition other_end (k : cfg) (c : nat) : nat := (nx k - c)%nat.
Definition stay (c : nat) : nat := c.
Definition first (r : nat) : nat := 0%nat.
(** The two ends with their conditions exchanged. *)
Definition ends_exchanged (k : cfg) : cfg :=
  {| trunk := trunk k; ny := ny k; nx := nx k; dt := dt k; T := T k; alpha := alpha k; max_error := max_error k; max_iter := max_iter k;
     offshore := onshore k; onshore := offshore k; lateral := lateral k; offshore_flux := onshore_flux k; onshore_flux := offshore_flux k;
     constant_offshore_flux := constant_onshore_flux k; constant_onshore_flux := constant_offshore_flux k |}.
(** The same set-up with another number of rows. *)
Definition with_rows (k : cfg) (n : nat) : cfg :=
  {| trunk := trunk k; ny := n; nx := nx k; dt := dt k; T := T k; alpha := alpha k; max_error := max_error k; max_iter := max_iter k;
     offshore := offshore k; onshore := onshore k; lateral := lateral k; offshore_flux := offshore_flux k; onshore_flux := onshore_flux k;
     constant_offshore_flux := constant_offshore_flux k; constant_onshore_flux := constant_onshore_flux k |}.
(** The wind with another component along the coast. *)
Definition with_side_wind (f : flow) (v : nat -> nat -> Q) : flow := {| us := us f; un := v; uu := uu f; ds := ds f; dn := dn f |}.
(** Conditions that exist at both ends. *)
Definition two_sided (k : cfg) : Prop := (offshore k = Flux \/ offshore k = Constant) /\ (onshore k = Flux \/ onshore k = Constant) /\ lateral k = Circular.
(** No inner cell without wind. *)
Definition never_calm (k : cfg) (f : flow) : Prop := forall r c, inside k r c -> ~ us f r c == 0.
(** Something differs. *)
Definition different_at (n : nat) (place : nat -> nat) (o o' : outcome) : Prop := exists i, (i < n)%nat /\ ~ ct o' i == ct o (place i).

(** ** Several fractions *)
(** A grain size class: what the solver reads of it, and its weights. *)
Notation class := (prod (prod flow input) (nat -> Q)).
(** The weights of all classes in a cell. *)
Definition shares (gs : list class) (i : nat) : list Q := map (fun g => snd g i) gs.
(** The weights are distributions. *)
Definition shared_out (k : cfg) (gs : list class) : Prop := forall i, (i < number_of_cells k)%nat -> qsum (shares gs i) == 1.
(** The bed has what the class asks for. *)
Definition plenty (k : cfg) (g : class) : Prop :=
  forall x, is_solution (number_of_cells k) (matrix k (fst (fst g))) (rhs k (fst (fst g)) (snd (fst g)) (snd g)) x ->
  forall i, (i < number_of_cells k)%nat -> (snd g i * Cu (snd (fst g)) i - x i) / T k * dt k <= mass (snd (fst g)) i.
(** What one step gives for one class. *)
Definition same_outcome (n : nat) (o o' : outcome) : Prop := same_at n (fun i => i) o o'.
(** A part of a class: the same grains, less of them. *)
Definition part (a : Q) (g : class) : class :=
  let d := snd (fst g) in
  ((fst (fst g), {| Cu := Cu d; Cuf := Cuf d; Cu0 := Cu0 d; mass := fun i => a * mass d i; lCt := fun i => a * lCt d i; lCu := lCu d; lCuf := lCuf d; lw := fun i => a * lw d i; sat := sat d |}),
   fun i => a * snd g i).
(** Nothing comes in through the ends. *)
Definition nothing_enters (k : cfg) (g : class) : Prop :=
  forall r, (r <= ny k)%nat ->
    prescribed (offshore k) (offshore_flux k) (constant_offshore_flux k) (at_cell k (Cu0 (snd (fst g))) r 0) (uu (fst (fst g)) r 0%nat) == 0 /\
    prescribed (onshore k) (onshore_flux k) (constant_onshore_flux k) (at_cell k (Cu0 (snd (fst g))) r (nx k)) (uu (fst (fst g)) r (nx k)) == 0.
(** Two results together are a third. *)
Definition together (n : nat) (o1 o2 o : outcome) : Prop :=
  converged o1 = converged o /\ converged o2 = converged o /\
  forall i, (i < n)%nat -> ct o1 i + ct o2 i == ct o i /\ pickup o1 i + pickup o2 i == pickup o i /\ weight o1 i + weight o2 i == weight o i.
(** All sand picked up in a cell. *)
Definition all_pickup (os : list outcome) (i : nat) : Q := qsum (map (fun o => pickup o i) os).
Definition all_air (os : list outcome) (i : nat) : Q := qsum (map (fun o => ct o i) os).
(** The sand of a class that goes into one part [a] and another [1 - a]. *)
Definition split_at (n : nat) (a : Q) (l : list Q) : list Q := firstn n l ++ a * nth n l 0 :: (1 - a) * nth n l 0 :: skipn (S n) l.
(** What does not depend on the amount is the same for both parts. *)
Definition twice_at (n : nat) (l : list Q) : list Q := firstn n l ++ nth n l 0 :: nth n l 0 :: skipn (S n) l.
(** The step is well posed for every class, and there is enough of all of them. *)
Definition all_supplied (sp : (nat -> nat -> Q) -> (nat -> Q) -> nat -> Q) (k : cfg) (gs : list class) : Prop :=
  max_iter k <> 0%nat /\ shared_out k gs /\ forall g, In g gs -> well_posed sp k (fst (fst g)) (snd (fst g)) (snd g) /\ plenty k g.
(** The step for all classes, in the order of the list, with the weights given. *)
Definition step_of (sp : (nat -> nat -> Q) -> (nat -> Q) -> nat -> Q) (k : cfg) (gs : list class) : result (option (list outcome * (nat -> list Q))) :=
  solve sp k false false [] (shares gs) (map fst gs).
