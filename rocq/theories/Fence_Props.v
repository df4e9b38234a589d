(** Properties C44, C94: fence heights. *)
From Verif Require Import Base Num Fence_Model Fence_Spec Fence_Cases.
From Coq Require Import QArith.
Open Scope Q_scope.

(** After any history of bed levels the fence height is zero, or from 0.1 to 1.5 m and the fence top minus the bed level. *)
Theorem C44_range : forall h z0 zs z, let q := height (history h z0 (zs ++ [z])) in q == 0 \/ (1 # 10 <= q <= 3 # 2 /\ q == z0 + h - z).
Proof. exact c44_range. Qed.
Print Assumptions C44_range.
Example C44_range_case : height (history 1 2 ([5 # 2; 3] ++ [11 # 5])) == 8 # 10 /\ height (history 1 2 [5 # 2; 3]) == 0 /\ height (history 1 2 [1]) == 0 /\ height (history 1 2 ([1] ++ [2])) == 0.
Proof. exact c44_case. Qed.

(** Without an initial fence of 0.1 m there is never one. *)
Theorem C44_none : forall h z0 zs z, h < 1 # 10 -> height (history h z0 (zs ++ [z])) = 0.
Proof. exact c44_none. Qed.
Print Assumptions C44_none.
Example C44_none_case : 0 < 1 # 10 /\ height (history 0 2 [1]) == 0.
Proof. exact c44_none_case. Qed.

(** A fence that once stuck out more than 1.5 m never comes back. *)
Theorem C44_gone : forall h z0 zs y ys z, undermined (z0 + h) y -> height (history h z0 ((zs ++ y :: ys) ++ [z])) = 0.
Proof. exact c44_gone. Qed.
Print Assumptions C44_gone.
Example C44_gone_case : undermined (2 + 1) 1 /\ height (history 1 2 (([5 # 2] ++ [1; 2]) ++ [3 # 2])) == 0 /\ height (history 1 2 (([5 # 2] ++ [2]) ++ [3 # 2])) == 3 # 2.
Proof. exact c44_gone_case. Qed.

(** Otherwise a fence with its top at least 0.1 m above datum stands wherever it sticks out at least 0.1 m, also after it has been buried. *)
Theorem C44_stands : forall h z0 zs z, built h (z0 + h) -> Forall (fun y => ~ undermined (z0 + h) y) (zs ++ [z]) ->
  height (history h z0 (zs ++ [z])) = if Qle_bool (1 # 10) (z0 + h - z) then z0 + h - z else 0.
Proof. exact c94_height. Qed.
Print Assumptions C44_stands.
Example C44_stands_case : built 1 (2 + 1) /\ Forall (fun y => ~ undermined (2 + 1) y) ([5 # 2] ++ [2]) /\ 1 # 10 <= 2 + 10 + 1.
Proof. exact c94_case. Qed.

(** The datum does not matter as long as the top is at least 0.1 m above it. *)
Theorem C94_datum : forall c h z0 zs z, 1 # 10 <= z0 + h -> 1 # 10 <= z0 + c + h ->
  height (history h (z0 + c) (map (fun y => y + c) zs ++ [z + c])) == height (history h z0 (zs ++ [z])).
Proof. exact c94_shift. Qed.
Print Assumptions C94_datum.
Example C94_datum_case : built 1 (2 + 1) /\ Forall (fun y => ~ undermined (2 + 1) y) ([5 # 2] ++ [2]) /\ 1 # 10 <= 2 + 10 + 1.
Proof. exact c94_case. Qed.

(** Otherwise the fence is not there. *)
Theorem C94_datum_refuted : exists c h z0 z, height (history h z0 [z]) == 1 /\ height (history h (z0 + c) [z + c]) == 0.
Proof. exact c94_datum. Qed.
Print Assumptions C94_datum_refuted.

(** Nor is a fence of more than 1.5 m, at any time. *)
Theorem C94_tall_refuted : exists h z0, 1 # 10 <= h /\ 1 # 10 <= z0 + h /\ forall zs z, height (history h z0 ((z0 :: zs) ++ [z])) = 0.
Proof. exact c94_tall. Qed.
Print Assumptions C94_tall_refuted.
