(** Proofs about the flow of groundwater. *)
From Coq Require Import ZArith Lia QArith Qfield.
From Verif Require Import Base Num Hydro_Model Hydro_Spec Hydro_Proofs Flow_Spec.
Open Scope Q_scope.

Lemma seep_length g s zb w w' : seep g s zb w = Ok w' -> length w' = length w.
Proof.
  unfold seep. destruct (seepage g); [|intros E; inversion E; auto]. match goal with |- context [Z.ltb ?a ?b] => destruct (Z.ltb a b) end; [|intros E; inversion E; auto].
  intros E. unfold put_slice in E. match type of E with context [Nat.eqb ?a ?b] => destruct (Nat.eqb_spec a b) as [L|]; [|discriminate] end. inversion E; subst; clear E.
  rewrite !app_length, firstn_length, skipn_length. rewrite L. unfold slice. rewrite firstn_length, skipn_length. lia.
Qed.
Lemma rate_curved g e eta s c ds gw j : (2 <= j)%nat -> (forall i, (j <= i + 1)%nat -> (i <= j + 1)%nat -> nth i ds 0 == e) -> ~ e == 0 -> curved e eta s c gw j ->
  rate g ds gw j == K_gw g / ne_gw g * (D_gw g * c + s * (8 * eta + 6 * c * (e * e)) / e).
Proof.
  intros J D E C. unfold rate, term.
  replace (j + 1 + 1)%nat with (j + 2)%nat by lia. replace (j + 1 - 1)%nat with j by lia. replace (j - 1 + 1)%nat with j by lia. replace (j - 1 - 1)%nat with (j - 2)%nat by lia.
  rewrite (D j), (D (j + 1)%nat), (D (j - 1)%nat) by lia.
  rewrite (C (j + 2)%nat), (C (j + 1)%nat), (C j), (C (j - 1)%nat), (C (j - 2)%nat) by lia. unfold offset.
  replace (Z.of_nat (j + 2) - Z.of_nat j)%Z with 2%Z by lia. replace (Z.of_nat (j + 1) - Z.of_nat j)%Z with 1%Z by lia. replace (Z.of_nat j - Z.of_nat j)%Z with 0%Z by lia.
  replace (Z.of_nat (j - 1) - Z.of_nat j)%Z with (-1)%Z by lia. replace (Z.of_nat (j - 2) - Z.of_nat j)%Z with (-2)%Z by lia.
  change (inject_Z 2) with 2. change (inject_Z 1) with 1. change (inject_Z 0) with 0. change (inject_Z (-1)) with (-(1)). change (inject_Z (-2)) with (-(2)).
  apply Qmult_comp; [reflexivity|]. field. auto.
Qed.
Lemma edges_length g shl other dswl gw : length (edges g shl other dswl gw) = length gw.
Proof. unfold edges. cbv zeta. unfold put. rewrite !put_nat_length. reflexivity. Qed.
Lemma rise_computed g shl j other dswl ds zb gw gw' r e eta s c : boussinesq g (Z.of_nat shl) other dswl ds zb gw = Ok (gw', r) -> inner_cell (length gw) shl j e ds -> curved e eta s c gw' j ->
  nth j r 0 == K_gw g / ne_gw g * (D_gw g * c + s * (8 * eta + 6 * c * (e * e)) / e).
Proof.
  intros B (I1 & I2 & I3 & I4 & I5 & I6) C. unfold boussinesq in B. destruct (seep g (Z.of_nat shl) zb (edges g (Z.of_nat shl) other dswl gw)) as [w|] eqn:S; [|discriminate]. cbn [bind] in B.
  assert (L : length w = length gw) by (rewrite (seep_length _ _ _ _ _ S); apply edges_length).
  destruct (change_spec g shl ds w I1 ltac:(lia) ltac:(congruence)) as (r' & E & _ & N). rewrite E in B. cbn [bind] in B. inversion B; subst; clear B.
  rewrite N. destruct (Nat.leb_spec (shl + 1) j); [|lia]. destruct (Nat.ltb_spec j (length gw' - 3)); [|lia]. cbn [andb]. apply rate_curved; auto. lia.
Qed.

(** Where the table is level: the depth of the aquifer alone counts. *)
Lemma rise_crest g shl j other dswl ds zb gw gw' r e c : boussinesq g (Z.of_nat shl) other dswl ds zb gw = Ok (gw', r) -> inner_cell (length gw) shl j e ds -> curved e 0 0 c gw' j ->
  nth j r 0 == documented_rise g 0 0 c.
Proof. intros B I C. rewrite (rise_computed _ _ _ _ _ _ _ _ _ _ _ _ _ _ B I C). unfold documented_rise. apply Qmult_comp; [reflexivity|]. field. apply I. Qed.
(** Straight sloping tables on two grids. *)
Lemma rise_grid g shl j other dswl ds zb gw gw' r e shl2 j2 other2 dswl2 ds2 zb2 gw2 gw2' r2 e2 eta s :
  boussinesq g (Z.of_nat shl) other dswl ds zb gw = Ok (gw', r) -> inner_cell (length gw) shl j e ds -> curved e eta s 0 gw' j ->
  boussinesq g (Z.of_nat shl2) other2 dswl2 ds2 zb2 gw2 = Ok (gw2', r2) -> inner_cell (length gw2) shl2 j2 e2 ds2 -> curved e2 eta s 0 gw2' j2 ->
  nth j2 r2 0 * e2 == nth j r 0 * e.
Proof.
  intros B I C B2 I2 C2. rewrite (rise_computed _ _ _ _ _ _ _ _ _ _ _ _ _ _ B I C), (rise_computed _ _ _ _ _ _ _ _ _ _ _ _ _ _ B2 I2 C2).
  assert (E : ~ e == 0) by apply I. assert (E2 : ~ e2 == 0) by apply I2. set (k := K_gw g / ne_gw g). field. auto.
Qed.
(** Another datum. *)
Lemma rise_datum g d shl j other dswl ds zb gw gw' r other2 dswl2 zb2 gw2 gw2' r2 e eta s c :
  boussinesq g (Z.of_nat shl) other dswl ds zb gw = Ok (gw', r) -> inner_cell (length gw) shl j e ds -> curved e eta s c gw' j ->
  boussinesq (lower_datum d g) (Z.of_nat shl) other2 dswl2 ds zb2 gw2 = Ok (gw2', r2) -> length gw2 = length gw -> curved e (eta + d) s c gw2' j ->
  nth j r2 0 - nth j r 0 == K_gw g / ne_gw g * d * (8 * s / e - c) /\ documented_rise (lower_datum d g) (eta + d) s c == documented_rise g eta s c.
Proof.
  intros B I C B2 L C2. assert (E : ~ e == 0) by apply I. assert (I2 : inner_cell (length gw2) shl j e ds) by (rewrite L; exact I). split.
  - rewrite (rise_computed _ _ _ _ _ _ _ _ _ _ _ _ _ _ B I C), (rise_computed _ _ _ _ _ _ _ _ _ _ _ _ _ _ B2 I2 C2). cbn [K_gw ne_gw D_gw lower_datum]. set (k := K_gw g / ne_gw g). field. auto.
  - unfold documented_rise. cbn [K_gw ne_gw D_gw lower_datum]. ring.
Qed.
