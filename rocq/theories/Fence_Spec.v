(** What the fence properties say. *)
From Verif Require Import Base Num.
Open Scope Q_scope.

(** A fence can be there at all: at least 0.1 m was built, and its top is at least 0.1 m above datum. *)
Definition built (h t : Q) : Prop := 1 # 10 <= h /\ 1 # 10 <= t.
(** With its top at t, the fence sticks out more than 1.5 m at bed level z. *)
Definition undermined (t z : Q) : Prop := 3 # 2 < t - z.
(** The height of a fence of h on bed level z0 after bed levels zs, the last of which is z. *)
Inductive stands (h z0 : Q) (zs : list Q) (z : Q) : Q -> Prop :=
| stands_up : built h (z0 + h) -> Forall (fun y => ~ undermined (z0 + h) y) (zs ++ [z]) -> 1 # 10 <= z0 + h - z -> stands h z0 zs z (z0 + h - z)
| stands_not : ~ (built h (z0 + h) /\ Forall (fun y => ~ undermined (z0 + h) y) (zs ++ [z]) /\ 1 # 10 <= z0 + h - z) -> stands h z0 zs z 0.
