(** Proofs about the seepage face. *)
From Coq Require Import ZArith Lia.
From Verif Require Import Base Num Utils_Model Hydro_Model Hydro_Spec Hydro_Proofs Hydro_Shore Seep_Spec.
Open Scope Q_scope.

Definition below (e z : list Q) : list bool := map2 (fun w z => negb (Qle_bool z (w + (1 # 20)))) e z.
Lemma exit_unique b c w z : exit_point b w z -> exit_point c w z -> b = c.
Proof.
  intros (B1 & B2 & B3) (C1 & C2 & C3). destruct (Nat.lt_trichotomy b c) as [H|[H|H]]; [|exact H|].
  - specialize (C3 b H). lra.
  - specialize (B3 c H). lra.
Qed.
Lemma first_true_inv l i : first_true l = Some i -> nth_error l i = Some true /\ forall j, (j < i)%nat -> nth_error l j = Some false.
Proof.
  revert i. induction l as [|b l IH]; cbn; [discriminate|]. intros i H. destruct b.
  - injection H as <-. split; [reflexivity|]. lia.
  - destruct (first_true l) as [k|]; [|discriminate]. cbn in H. injection H as <-. destruct (IH k eq_refl) as (H1 & H2). split; [exact H1|].
    intros [|j] Hj; [reflexivity|]. cbn. apply H2. lia.
Qed.
Lemma first_true_inv_none l j : first_true l = None -> nth_error l j <> Some true.
Proof.
  revert j. induction l as [|b l IH]; cbn; intros j H; [destruct j; discriminate|]. destruct b; [discriminate|]. destruct (first_true l) eqn:E; [discriminate|].
  destruct j as [|j]; cbn; [discriminate|]. apply IH. reflexivity.
Qed.
Lemma below_nth e z j : length z = length e -> (j < length e)%nat -> nth_error (below e z) j = Some (negb (Qle_bool (nth j z 0) (nth j e 0 + (1 # 20)))).
Proof.
  intros H Hj. unfold below. apply (map2_nth_error (fun w z => negb (Qle_bool z (w + (1 # 20))))); apply nth_error_nth'; lia.
Qed.
Lemma first_exit e z i : length z = length e -> first_true (below e z) = Some i -> exit_point i e z.
Proof.
  intros H E. destruct (first_true_inv _ _ E) as (E1 & E2).
  assert (Hi : (i < length e)%nat). { assert (i < length (below e z))%nat by (apply nth_error_Some; congruence). unfold below in *. rewrite map2_min in *. lia. }
  split; [|split; [exact Hi|]].
  - rewrite (below_nth e z i H Hi) in E1. injection E1 as E1. destruct (Qle_bool_spec (nth i z 0) (nth i e 0 + (1 # 20))); [discriminate|]. lra.
  - intros j Hj. specialize (E2 j Hj). rewrite below_nth in E2 by lia. injection E2 as E2. destruct (Qle_bool_spec (nth j z 0) (nth j e 0 + (1 # 20))); [|discriminate]. lra.
Qed.
Lemma exit_some e z b : length z = length e -> exit_point b e z -> first_true (below e z) <> None.
Proof.
  intros H (B1 & B2 & _) E. apply (first_true_inv_none _ b E). rewrite (below_nth _ _ _ H B2). destruct (Qle_bool_spec (nth b z 0) (nth b e 0 + (1 # 20))); [lra|reflexivity].
Qed.
(** The changed levels, from those without the process. *)
Lemma seep_nth g s z e w' : seepage g = true -> length z = length e -> seep g (Z.of_nat s) z e = Ok w' -> length w' = length e /\
  forall b, exit_point b w' z -> forall j, nth j w' 0 = if Nat.leb s j && Nat.ltb (S j) b then nth j z 0 else nth j e 0.
Proof.
  intros Hg Hl H. unfold seep in H. rewrite Hg in H. fold (below e z) in H. unfold argmax in H.
  destruct (first_true (below e z)) as [i|] eqn:E.
  - pose proof (first_exit _ _ _ Hl E) as Hi. destruct Hi as (I1 & I2 & I3).
    destruct (Z.ltb_spec (Z.of_nat s) (Z.of_nat i - 1)) as [Hs|Hs].
    + split; [apply (put_slice_length _ _ _ _ _ H)|]. rewrite <- (map_id (slice _ _ z)) in H. assert (Hb0 : (0 <= Z.of_nat i - 1)%Z) by lia. assert (Hb1 : (Z.of_nat i - 1 <= Z.of_nat (length e))%Z) by lia.
      pose proof (fun j => put_slice_nth _ _ (fun q => q) z e w' j (Zle_0_nat s) Hb0 Hb1 Hl H) as N.
      assert (Hi : exit_point i w' z).
      { split; [|split].
        - rewrite N. destruct (Z.ltb_spec (Z.of_nat i) (Z.of_nat i - 1)); [lia|]. rewrite andb_false_r. exact I1.
        - rewrite (put_slice_length _ _ _ _ _ H). exact I2.
        - intros j Hj. rewrite N. destruct (_ && _); [lra|]. apply I3, Hj. }
      intros b Hb j. rewrite (exit_unique _ _ _ _ Hb Hi), N. destruct (Z.leb_spec (Z.of_nat s) (Z.of_nat j)), (Z.ltb_spec (Z.of_nat j) (Z.of_nat i - 1)), (Nat.leb_spec s j), (Nat.ltb_spec (S j) i); cbn; try lia; reflexivity.
    + apply Ok_inj in H. subst w'. split; [reflexivity|]. intros b Hb j. rewrite (exit_unique _ _ _ _ Hb (conj I1 (conj I2 I3))).
      destruct (Nat.leb_spec s j), (Nat.ltb_spec (S j) i); cbn; try lia; reflexivity.
  - destruct (Z.ltb_spec (Z.of_nat s) (0 - 1)); [lia|]. apply Ok_inj in H. subst w'. split; [reflexivity|]. intros b Hb. destruct (exit_some _ _ _ Hl Hb E).
Qed.
Lemma bous_seep g s o d ds z w w' r : boussinesq g s o d ds z w = Ok (w', r) -> seep g s z (edges g s o d w) = Ok w'.
Proof.
  unfold boussinesq. destruct (seep _ _ _ _) as [x|]; cbn [bind]; [|discriminate]. destruct (change _ _ _ x); cbn [bind]; [|discriminate]. intros H. apply Ok_inj in H. congruence.
Qed.
Lemma bous_plain g s o d ds z w w' r : boussinesq (no_seepage g) s o d ds z w = Ok (w', r) -> w' = edges g s o d w.
Proof. intros H. apply bous_seep in H. cbn in H. apply Ok_inj in H. symmetry. exact H. Qed.
Lemma face g s o d ds z w w' r b j : seepage g = true -> length z = length w -> boussinesq g (Z.of_nat s) o d ds z w = Ok (w', r) -> exit_point b w' z ->
  (s <= j)%nat -> (S j < b)%nat -> nth j w' 0 = nth j z 0.
Proof.
  intros Hg Hl H Hb H1 H2. apply bous_seep in H. destruct (seep_nth g s z (edges g (Z.of_nat s) o d w) w' Hg) as (_ & N); [rewrite edges_length; exact Hl|exact H|].
  rewrite (N b Hb). destruct (Nat.leb_spec s j), (Nat.ltb_spec (S j) b); cbn; try lia; reflexivity.
Qed.
Lemma outside g s o d ds z w w' r w0 r0 b j : seepage g = true -> length z = length w -> boussinesq g (Z.of_nat s) o d ds z w = Ok (w', r) ->
  boussinesq (no_seepage g) (Z.of_nat s) o d ds z w = Ok (w0, r0) -> exit_point b w' z -> (j < s)%nat \/ (b <= S j)%nat -> nth j w' 0 = nth j w0 0.
Proof.
  intros Hg Hl H H0 Hb Hj. apply bous_seep in H. apply bous_plain in H0. subst w0. destruct (seep_nth g s z (edges g (Z.of_nat s) o d w) w' Hg) as (_ & N); [rewrite edges_length; exact Hl|exact H|].
  rewrite (N b Hb). destruct (Nat.leb_spec s j), (Nat.ltb_spec (S j) b); cbn; try lia; reflexivity.
Qed.
