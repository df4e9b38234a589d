(** The weights kept after a step: property C181. *)
From Verif Require Import Base Num Utils_Model Bed_Model Solver_Model Solver_Spec Solver_Cases Linear Run_Model Run_Spec Run_Cases Limit_Spec Kept_Spec Kept_Proofs Kept_Cases.
From Coq Require Import QArith List.
Import ListNotations.
Open Scope Q_scope.

(** C181, in every cell where the last fraction is present in the air or in the bed: the weights kept are those used, for all fractions.  Full statement: without that condition; false, see C181_absent_refuted. *)
Theorem C181_present_partial : forall sp nf k e t0 s ws s' os, sound_setup nf k e -> sound_state nf k s -> plain_winds sp nf k ws ->
  run sp k e t0 s [Some ws] = Ok (Some (s', [os])) -> (forall o, In o os -> converged o = true) ->
  forall j, (j < number_of_cells k)%nat -> 0 < nth (nf - 1) (at_first e t0 s ws j) 0 -> kept s' os j.
Proof. exact weights_kept. Qed.
Print Assumptions C181_present_partial.
Example C181_present_partial_case : sound_setup 2 k123 e123 /\ sound_state 2 k123 (s181 1 1) /\ plain_winds (gauss 4) 2 k123 [breeze 8; breeze 4] /\ 0 < nth (2 - 1) (at_first e123 false (s181 1 1) [breeze 8; breeze 4] 1) 0 /\
  exists s1 o1 o2, run (gauss 4) k123 e123 false (s181 1 1) [Some [breeze 8; breeze 4]] = Ok (Some (s1, [[o1; o2]])) /\ converged o1 = true /\ converged o2 = true /\
  weight o1 1%nat == 3283 # 17496 /\ nth 0 (oldw s1 1%nat) 0 == 3283 # 17496 /\ kept s1 [o1; o2] 1.
Proof. exact c181_case. Qed.

(** C181 is false in a cell without sand of the last fraction: if supply limits the first one, its weight is scaled up to one after its concentration has been computed. *)
Theorem C181_absent_refuted : exists sp k e s ws s1 o1 o2 j, sound_setup 2 k e /\ sound_state 2 k s /\ plain_winds sp 2 k ws /\ (j < number_of_cells k)%nat /\
  run sp k e false s [Some ws] = Ok (Some (s1, [[o1; o2]])) /\ converged o1 = true /\ converged o2 = true /\ weight o1 j < 1 # 5 /\ nth 0 (oldw s1 j) 0 == 1 /\ ~ kept s1 [o1; o2] j.
Proof. exact c181_refuted. Qed.
Print Assumptions C181_absent_refuted.
