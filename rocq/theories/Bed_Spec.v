(** Specifications for C23-C27, C56. *)
From Verif Require Import Base Num Utils_Spec.
Open Scope Q_scope.

(** A bed of layers with [nf] fractions each. *)
Definition shaped (nf : nat) (m : list (list Q)) : Prop := forall l, In l m -> length l = nf.
Definition nonneg_bed (m : list (list Q)) : Prop := forall l, In l m -> all_nonneg l.
(** The masses of the layers. *)
Definition layer_masses (m : list (list Q)) : list Q := map qsum m.
(** The mass of fraction [k] in all layers together. *)
Definition fraction_mass (k : nat) (m : list (list Q)) : Q := qsum (column k m).
(** Mass deposited minus mass eroded. *)
Definition net_deposit (pickup : list Q) : Q := - qsum pickup.
(** Depth of the bottom of layer [i]. *)
Definition bottom (i : nat) (th : list Q) : Q := qsum (firstn (S i) th).
(** [new] lies between [old] and [target], both included. *)
Definition towards (old target new : Q) : Prop := (old <= new /\ new <= target) \/ (target <= new /\ new <= old).
Fixpoint qpow (x : Q) (n : nat) : Q := match n with O => 1 | S n' => x * qpow x n' end.
