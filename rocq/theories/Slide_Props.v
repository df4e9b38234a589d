(** What must not matter to avalanching: properties C175, C176 and C177. *)
From Verif Require Import Base Avalanche_Model Avalanche_Spec Avalanche_Cases Slide_Spec Slide_Proofs Slide_Cases.
From Coq Require Import Reals.

Open Scope R_scope.

(** C175. Counting all heights from another level changes nothing. *)
Theorem C175_datum : forall process ny nx ds dn zne zne' ts tdy n z z' h, lifted ny nx h zne zne' -> lifted ny nx h z z' ->
  lifted ny nx h (avalanche process ny nx ds dn zne ts tdy n z) (avalanche process ny nx ds dn zne' ts tdy n z').
Proof. exact datum. Qed.
Print Assumptions C175_datum.
Example C175_datum_case : lifted 1 3 5 zeros (all 5) /\ lifted 1 3 5 (pile 0 1 10) (fun j i => pile 0 1 10 j i + 5) /\ avalanche true 1 3 (all 1) (all 1) zeros 45 45 1 (pile 0 1 10) 0 1 < 10.
Proof. exact c175_case. Qed.

(** C176. With the columns in the other order the same sand slides. *)
Theorem C176_mirror_s : forall process ny nx ds dn zne ds' dn' zne' ts tdy n z z', flipped_s ny nx ds ds' -> flipped_s ny nx dn dn' -> flipped_s ny nx zne zne' -> flipped_s ny nx z z' ->
  flipped_s ny nx (avalanche process ny nx ds dn zne ts tdy n z) (avalanche process ny nx ds' dn' zne' ts tdy n z').
Proof. exact flip_s_all. Qed.
Print Assumptions C176_mirror_s.
Example C176_mirror_s_case : flipped_s 1 3 (row [0; 10; 1]) (row [1; 10; 0]) /\ flipped_s 1 3 (row [1; 1; 2]) (row [2; 1; 1]) /\ flipped_s 1 3 ones ones /\ flipped_s 1 3 zeros zeros /\
  tan (deg2rad 45) < slope 1 (row [0; 10; 1]) ones ones 0 1.
Proof. exact c176_s_case. Qed.

(** C176. With the rows in the other order the same sand slides. *)
Theorem C176_mirror_n : forall process ny nx ds dn zne ds' dn' zne' ts tdy n z z', flipped_n ny nx ds ds' -> flipped_n ny nx dn dn' -> flipped_n ny nx zne zne' -> flipped_n ny nx z z' ->
  flipped_n ny nx (avalanche process ny nx ds dn zne ts tdy n z) (avalanche process ny nx ds' dn' zne' ts tdy n z').
Proof. exact flip_n_all. Qed.
Print Assumptions C176_mirror_n.
Example C176_mirror_n_case : flipped_n 4 3 (pile 1 1 10) (pile 2 1 10) /\ flipped_n 4 3 ones ones /\ flipped_n 4 3 zeros zeros.
Proof. exact c176_n_case. Qed.

(** C176. With rows and columns exchanged the same sand slides, for square cells and at least two rows and columns. Missing: other cells (C176_oblong_refuted) and a single row or column (C176_column_refuted). *)
Theorem C176_exchange_partial : forall process ny nx ds dn zne ds' dn' zne' ts tdy n z z', (2 <= ny)%nat -> (2 <= nx)%nat -> (forall j i, (j < ny)%nat -> (i < nx)%nat -> dn j i = ds j i) ->
  exchanged ny nx ds dn' -> exchanged ny nx dn ds' -> exchanged ny nx zne zne' -> exchanged ny nx z z' ->
  exchanged ny nx (avalanche process ny nx ds dn zne ts tdy n z) (avalanche process nx ny ds' dn' zne' ts tdy n z').
Proof. exact turn_all. Qed.
Print Assumptions C176_exchange_partial.
Example C176_exchange_partial_case : exchanged 4 3 (pile 2 1 10) (pile 1 2 10) /\ exchanged 4 3 ones ones /\ exchanged 4 3 zeros zeros /\ (2 <= 4)%nat /\ (2 <= 3)%nat.
Proof. exact c176_turn_case. Qed.

(** C176. On a single row sand slides, on a single column it does not. *)
Theorem C176_column_refuted : exists ds dn zne z z' ts tdy n, (forall j i, 0 < ds j i /\ 0 < dn j i /\ zne j i <= z j i) /\ exchanged 1 3 ds dn /\ exchanged 1 3 dn ds /\ exchanged 1 3 zne zne /\ exchanged 1 3 z z' /\
  ~ exchanged 1 3 (avalanche true 1 3 ds dn zne ts tdy n z) (avalanche true 3 1 ds dn zne ts tdy n z').
Proof. exact c176_column. Qed.
Print Assumptions C176_column_refuted.

(** C176. Where cells are longer one way than the other, the depth of the sand counts by the length along the row only. *)
Theorem C176_oblong_refuted : exists ds dn zne z z' zne' ts tdy n, (forall j i, 0 < ds j i /\ 0 < dn j i /\ zne j i <= z j i) /\ exchanged 3 3 ds ds /\ exchanged 3 3 dn dn /\ exchanged 3 3 zne zne' /\ exchanged 3 3 z z' /\
  ~ exchanged 3 3 (avalanche true 3 3 ds dn zne ts tdy n z) (avalanche true 3 3 dn ds zne' ts tdy n z').
Proof. exact c176_oblong. Qed.
Print Assumptions C176_oblong_refuted.

(** C177. A pass changes the bed by the same number, whatever the unit of length is. The full statement is that it changes by the same length. *)
Theorem C177_pass_partial : forall ny nx k ds dn zne ds' dn' zne' td z z' j i, 0 < k -> (forall j i, (j < ny)%nat -> (i < nx)%nat -> 0 < ds j i /\ 0 < dn j i) ->
  in_unit ny nx k ds ds' -> in_unit ny nx k dn dn' -> in_unit ny nx k zne zne' -> in_unit ny nx k z z' -> (j < ny)%nat -> (i < nx)%nat ->
  relax ny nx ds' dn' zne' td z' j i - z' j i = relax ny nx ds dn zne td z j i - z j i.
Proof. exact unit_all. Qed.
Print Assumptions C177_pass_partial.
Example C177_pass_partial_case : 0 < 100 /\ in_unit 1 3 100 (all 1) (all 100) /\ in_unit 1 3 100 zeros zeros /\ in_unit 1 3 100 (pile 0 1 10) (pile 0 1 1000) /\ relax 1 3 (all 1) (all 1) zeros 1 (pile 0 1 10) 0 1 < 10.
Proof. exact c177_case. Qed.

(** C177. So in another unit other slopes result. *)
Theorem C177_unit_refuted : exists k ds dn zne z ds' dn' zne' z' ts tdy n, 0 < k /\ (forall j i, 0 < ds j i /\ 0 < dn j i /\ zne j i <= z j i) /\ in_unit 1 3 k ds ds' /\ in_unit 1 3 k dn dn' /\ in_unit 1 3 k zne zne' /\ in_unit 1 3 k z z' /\
  ~ in_unit 1 3 k (avalanche true 1 3 ds dn zne ts tdy n z) (avalanche true 1 3 ds' dn' zne' ts tdy n z').
Proof. exact c177_unit. Qed.
Print Assumptions C177_unit_refuted.
