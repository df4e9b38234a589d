(** Cases and counterexamples for the flow of groundwater. *)
From Coq Require Import ZArith Lia QArith.
From Verif Require Import Base Num Hydro_Model Hydro_Spec Hydro_Proofs Flow_Spec Flow_Proofs.
Open Scope Q_scope.

(** An aquifer of 10 m below the datum. *)
Definition aquifer : gwcfg := {| static := false; GW_stat := 0; K_gw := 1 # 1000; ne_gw := 3 # 10; D_gw := 10; Cl_gw := 0; seepage := false; waves := false |}.
(** Twelve cells of size [e] and a table that slopes 1:100 from the level [h] at the first one; the parabola below has its top in cell 5. *)
Definition sloping (h e : Q) : list Q := map (fun i => Qred (h + (1 # 100) * (inject_Z (Z.of_nat i) * e))) (seq 0 12).
Definition mound : list Q := map (fun i => Qred (- (1 # 100) * inject_Z ((Z.of_nat i - 5) * (Z.of_nat i - 5)))) (seq 0 12).
Definition cells (e : Q) : list Q := repeat e 12.
Definition hill : list Q := repeat 9 12.
(** The result for the table as sea level too. *)
Definition flows (g : gwcfg) (e : Q) (gw : list Q) : result (list Q * list Q) := boussinesq g 1 1 gw (cells e) hill gw.
Lemma five (P : nat -> Prop) : P 3%nat -> P 4%nat -> P 5%nat -> P 6%nat -> P 7%nat -> forall i, (5 <= i + 2)%nat -> (i <= 5 + 2)%nat -> P i.
Proof. intros P3 P4 P5 P6 P7 i A B. assert (i = 3 \/ i = 4 \/ i = 5 \/ i = 6 \/ i = 7)%nat as [-> |[-> |[-> |[-> | ->]]]] by lia; auto. Qed.
Lemma inner_cells e : ~ e == 0 -> inner_cell 12 1 5 e (cells e).
Proof. intros E. repeat split; auto; try lia. intros i A B. assert (i = 4 \/ i = 5 \/ i = 6)%nat as [-> |[-> | ->]] by lia; reflexivity. Qed.
Lemma c189_case : exists gw' r, flows aquifer 1 (sloping 1 1) = Ok (gw', r) /\ inner_cell 12 1 5 1 (cells 1) /\ curved 1 (21 # 20) (1 # 100) 0 gw' 5 /\ nth 5 r 0 == 28 # 100000.
Proof.
  eexists. eexists. split; [vm_compute; reflexivity|]. split; [apply inner_cells; discriminate|]. split; [|reflexivity]. unfold curved. apply five; reflexivity.
Qed.
Lemma c189_crest_case : exists gw' r, flows aquifer 1 mound = Ok (gw', r) /\ curved 1 0 0 (- (2 # 100)) gw' 5 /\ nth 5 r 0 == - (2 # 3000).
Proof. eexists. eexists. split; [vm_compute; reflexivity|]. split; [|reflexivity]. unfold curved. apply five; reflexivity. Qed.
Lemma c189_refuted : exists g other dswl ds zb gw gw' r, boussinesq g 1 other dswl ds zb gw = Ok (gw', r) /\ inner_cell (length gw) 1 5 1 ds /\ curved 1 (21 # 20) (1 # 100) 0 gw' 5 /\
  0 < documented_rise g (21 # 20) (1 # 100) 0 /\ 800 * documented_rise g (21 # 20) (1 # 100) 0 < nth 5 r 0.
Proof.
  destruct c189_case as (gw' & r & F & I & C & N). exists aquifer, 1%Z, (sloping 1 1), (cells 1), hill, (sloping 1 1), gw', r. split; [exact F|]. split; [exact I|]. split; [exact C|]. split; [reflexivity|].
  rewrite N. reflexivity.
Qed.
(** The same table on a grid of half the spacing; cell 5 is at the same level. *)
Lemma c189_grid_case : exists gw' r gw2' r2, flows aquifer 1 (sloping 1 1) = Ok (gw', r) /\ flows aquifer (1 # 2) (sloping (41 # 40) (1 # 2)) = Ok (gw2', r2) /\
  curved 1 (21 # 20) (1 # 100) 0 gw' 5 /\ curved (1 # 2) (21 # 20) (1 # 100) 0 gw2' 5 /\ nth 5 r2 0 == 2 * nth 5 r 0.
Proof.
  eexists. eexists. eexists. eexists. split; [vm_compute; reflexivity|]. split; [vm_compute; reflexivity|]. split; [unfold curved; apply five; reflexivity|].
  split; [unfold curved; apply five; reflexivity|reflexivity].
Qed.
(** Levels from a datum that is 1 m lower. *)
Lemma c190_case : exists gw' r gw2' r2, flows aquifer 1 (sloping 1 1) = Ok (gw', r) /\ flows (lower_datum 1 aquifer) 1 (sloping 2 1) = Ok (gw2', r2) /\
  curved 1 (21 # 20) (1 # 100) 0 gw' 5 /\ curved 1 ((21 # 20) + 1) (1 # 100) 0 gw2' 5.
Proof.
  eexists. eexists. eexists. eexists. split; [vm_compute; reflexivity|]. split; [vm_compute; reflexivity|]. split; unfold curved; apply five; vm_compute; reflexivity.
Qed.
Lemma c190_refuted : exists g d other dswl ds zb gw gw' r r2 gw2', d == 1 /\ boussinesq g 1 other dswl ds zb gw = Ok (gw', r) /\ 
  boussinesq (lower_datum d g) 1 other (map (Qplus d) dswl) ds (map (Qplus d) zb) (map (Qplus d) gw) = Ok (gw2', r2) /\ same_list gw2' (map (Qplus d) gw') /\ 0 < nth 5 r 0 /\ (19 # 10) * nth 5 r 0 < nth 5 r2 0.
Proof.
  exists aquifer, 1, 1%Z, (sloping 1 1), (cells 1), hill, (sloping 1 1). eexists. eexists. eexists. eexists. split; [reflexivity|]. split; [vm_compute; reflexivity|]. split; [vm_compute; reflexivity|].
  split; [repeat constructor|]. split; reflexivity.
Qed.
