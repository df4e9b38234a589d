(** The shares of bed and air in the weights of the fractions: property C185. *)
From Verif Require Import Base Num Utils_Model Share_Spec Share_Proofs Share_Cases.
From Coq Require Import QArith List.
Import ListNotations.
Open Scope Q_scope.

(** C185 up to saturation: the documented shares.  Full statement: at any saturation; false, see C185_saturated_refuted. *)
Theorem C185_unsaturated_partial : forall bi ct cu mass i, 0 <= bi -> bi <= 1 -> carried ct cu mass -> (i < length ct)%nat -> saturation ct cu <= 1 ->
  nth i (compute_weights bi ct cu mass) 0 == mixture (1 - doc_bed_share bi (saturation ct cu)) (of_air ct cu i) (of_bed mass i).
Proof. exact c185_partial. Qed.
Print Assumptions C185_unsaturated_partial.
Example C185_unsaturated_partial_case : carried [7 # 10; 0] [1; 1] [0; 1] /\ saturation [7 # 10; 0] [1; 1] <= 1 /\
  map Qred (compute_weights (1 # 5) [7 # 10; 0] [1; 1] [0; 1]) = [14 # 25; 11 # 25] /\ 1 - doc_bed_share (1 # 5) (saturation [7 # 10; 0] [1; 1]) == 56 # 100.
Proof. exact c185_case. Qed.

(** C185, what is computed as long as (1 - bi) times the saturation is not above one. *)
Theorem C185_between : forall bi ct cu mass i, 0 <= bi -> bi <= 1 -> carried ct cu mass -> (i < length ct)%nat -> (1 - bi) * saturation ct cu <= 1 ->
  nth i (compute_weights bi ct cu mass) 0 == mixture ((1 - bi) * saturation ct cu) (of_air ct cu i) (of_bed mass i).
Proof. exact c185_between. Qed.
Print Assumptions C185_between.
Example C185_between_case : carried [11 # 10; 0] [1; 1] [0; 1] /\ (1 - (1 # 5)) * saturation [11 # 10; 0] [1; 1] <= 1 /\
  map Qred (compute_weights (1 # 5) [11 # 10; 0] [1; 1] [0; 1]) = [22 # 25; 3 # 25].
Proof. exact c185_between_case. Qed.

(** C185, beyond that the bed is of no influence, whatever the bed interaction. *)
Theorem C185_above : forall bi ct cu mass i, 0 <= bi -> bi <= 1 -> carried ct cu mass -> (i < length ct)%nat -> 1 <= (1 - bi) * saturation ct cu ->
  nth i (compute_weights bi ct cu mass) 0 == of_air ct cu i.
Proof. exact c185_above. Qed.
Print Assumptions C185_above.
Example C185_above_case : carried [3 # 2; 0] [1; 1] [0; 1] /\ 1 <= (1 - (1 # 5)) * saturation [3 # 2; 0] [1; 1] /\
  map Qred (compute_weights (1 # 5) [3 # 2; 0] [1; 1] [0; 1]) = [1; 0].
Proof. exact c185_above_case. Qed.

(** C185 with full bed interaction: the bed alone, at any saturation. *)
Theorem C185_bed_only : forall ct cu mass i, carried ct cu mass -> (i < length ct)%nat -> nth i (compute_weights 1 ct cu mass) 0 == of_bed mass i.
Proof. exact c185_bed_only. Qed.
Print Assumptions C185_bed_only.
Example C185_bed_only_case : carried [3 # 2; 0] [1; 1] [0; 1] /\ map Qred (compute_weights 1 [3 # 2; 0] [1; 1] [0; 1]) = [0; 1].
Proof. exact c185_bed_only_case. Qed.

(** C185 is false in over-saturated air: with a bed interaction of 20 % the bed should contribute 20 %, and contributes nothing. *)
Theorem C185_saturated_refuted : exists bi ct cu mass i, bi == 1 # 5 /\ carried ct cu mass /\ (i < length ct)%nat /\ 1 <= saturation ct cu /\
  nth i (compute_weights bi ct cu mass) 0 == 0 /\ mixture (1 - doc_bed_share bi (saturation ct cu)) (of_air ct cu i) (of_bed mass i) == 1 # 5.
Proof. exact c185_refuted. Qed.
Print Assumptions C185_saturated_refuted.
