(** Cases and counterexample for the shares of bed and air in the weights. *)
From Verif Require Import Base Num Utils_Model Utils_Spec Utils_Proofs Share_Spec Share_Proofs.
Open Scope Q_scope.

Lemma carried_ex ct : length ct = 2%nat -> (forall x, In x ct -> 0 <= x) -> carried ct [1; 1] [0; 1].
Proof.
  intros L P. repeat split; auto; try (rewrite L; reflexivity).
  - intros x [<-|[<-|[]]]; lra.
  - intros x [<-|[<-|[]]]; lra.
Qed.
(** The example of the documentation: the air is 70 % saturated, and bed interaction of 20 % gives 56 % air and 44 % bed. *)
Lemma c185_case : carried [7 # 10; 0] [1; 1] [0; 1] /\ saturation [7 # 10; 0] [1; 1] <= 1 /\
  map Qred (compute_weights (1 # 5) [7 # 10; 0] [1; 1] [0; 1]) = [14 # 25; 11 # 25] /\ 1 - doc_bed_share (1 # 5) (saturation [7 # 10; 0] [1; 1]) == 56 # 100.
Proof.
  split; [apply carried_ex; [reflexivity|]; intros x [<-|[<-|[]]]; lra|]. split; [vm_compute; discriminate|]. split; reflexivity.
Qed.
(** Over-saturated air with bed interaction: more than one, but less than 1.25. *)
Lemma c185_between_case : carried [11 # 10; 0] [1; 1] [0; 1] /\ (1 - (1 # 5)) * saturation [11 # 10; 0] [1; 1] <= 1 /\
  map Qred (compute_weights (1 # 5) [11 # 10; 0] [1; 1] [0; 1]) = [22 # 25; 3 # 25].
Proof.
  split; [apply carried_ex; [reflexivity|]; intros x [<-|[<-|[]]]; lra|]. split; [vm_compute; discriminate|]. reflexivity.
Qed.
Lemma c185_above_case : carried [3 # 2; 0] [1; 1] [0; 1] /\ 1 <= (1 - (1 # 5)) * saturation [3 # 2; 0] [1; 1] /\
  map Qred (compute_weights (1 # 5) [3 # 2; 0] [1; 1] [0; 1]) = [1; 0].
Proof.
  split; [apply carried_ex; [reflexivity|]; intros x [<-|[<-|[]]]; lra|]. split; [vm_compute; discriminate|]. reflexivity.
Qed.
Lemma c185_bed_only_case : carried [3 # 2; 0] [1; 1] [0; 1] /\ map Qred (compute_weights 1 [3 # 2; 0] [1; 1] [0; 1]) = [0; 1].
Proof. split; [apply carried_ex; [reflexivity|]; intros x [<-|[<-|[]]]; lra|]. reflexivity. Qed.
Lemma c185_refuted : exists bi ct cu mass i, bi == 1 # 5 /\ carried ct cu mass /\ (i < length ct)%nat /\ 1 <= saturation ct cu /\
  nth i (compute_weights bi ct cu mass) 0 == 0 /\ mixture (1 - doc_bed_share bi (saturation ct cu)) (of_air ct cu i) (of_bed mass i) == 1 # 5.
Proof.
  exists (1 # 5), [3 # 2; 0], [1; 1], [0; 1], 1%nat. split; [reflexivity|]. split; [apply c185_above_case|]. split; [cbn; lia|].
  split; [vm_compute; discriminate|]. split; reflexivity.
Qed.
