(** The non-erodible layer stops the wind. *)
From Coq Require Import QArith Reals Qreals Lra Lia List.
From Verif Require Import Base Num Ext Bed_Model Solver_Model Solver_Spec Run_Model Run_Spec Day_Model Day_Spec Threshold_Model Threshold_Spec Threshold_Proofs Limit_Spec Limit_Proofs.
From Coq Require Import Lra.
Import ListNotations.
Open Scope Q_scope.

Lemma hundredth : Q2R (1 # 100) = (1 / 100)%R.
Proof. unfold Q2R. cbn. lra. Qed.
Lemma forall2_in {A B} (P : A -> B -> Prop) (l : list A) (m : list B) : Forall2 P l m -> forall b, In b m -> exists a, In a l /\ P a b.
Proof. induction 1 as [|a b l m H F IH]; intros x Hx. destruct Hx. destruct Hx as [<- | Hx]. exists a. split; [left; reflexivity | exact H]. destruct (IH x Hx) as (y & Hy & P0). exists y. split; [right; exact Hy | exact P0]. Qed.
Lemma sum_zero {A} (f : A -> Q) : forall l, (forall x, In x l -> f x == 0) -> qsum (map f l) == 0.
Proof. induction l as [|a l IH]; intros H; cbn [map qsum fold_right]. reflexivity. fold (qsum (map f l)). rewrite IH by (intros x Hx; apply H; right; exact Hx). rewrite (H a (or_introl eq_refl)). ring. Qed.
Lemma threshold_stops nel z j ws : with_threshold nel z j ws -> z <= nel + (1 # 100) -> forall w, In w ws -> wCu w j == 0.
Proof.
  intros (p & c & t & t' & Hn & Hz & Hne & Hc & HF) Hle w Hw. destruct (forall2_in _ _ _ HF w Hw) as (u & Hu & q & tr & rows & g & a & b & Q1 & Q2 & Q3 & Q4 & Q5 & Q6 & Q7 & Q8 & Q9).
  destruct (compute_ne p _ c t t' Hn Hc eq_refl) as (t0 & _ & _ & _ & _ & A & _).
  assert (L : (Threshold_Model.zb c <= Threshold_Model.ne c + 1 / 100)%R). { rewrite Hz, Hne, <- hundredth, <- Q2R_plus. apply Qle_Rle, Hle. }
  pose proof (proj1 (Forall_forall _ _) (A L) u Hu) as ->. pose proof (inf_no_transport q tr rows g a b Q1 Q2 Q3 Q4 Q5 Q6 Q7 Q8) as E. rewrite E in Q9. injection Q9 as Q9.
  apply eqR_Qeq. rewrite <- Q9. unfold Q2R. cbn. lra.
Qed.
Lemma rocky_spared nel j climate : rocky nel j climate -> spared_below j (nel + (1 # 100)) climate.
Proof. intros H s past ws Hl E. unfold can_carry. apply sum_zero. intros w Hw. exact (threshold_stops nel (level s j) j ws (H s past ws E) Hl w Hw). Qed.
Lemma days_rock sp nf k e m L climate nel h j n t0 past s s' t : sound_setup nf k e -> plain_climate sp nf k climate -> (j < number_of_cells k)%nat -> rocky nel j climate -> never_lowered j climate ->
  erodes_at_most k e j h climate \/ 0 <= L <= sediment e h -> 0 <= h -> sound_state nf k s -> equal_layers L s -> fits m s ->
  days sp k e m climate n t0 past s = Ok (Some (s', t)) -> (forall y, In y t -> gentle k L y) -> qmin (level s j) (nel + (1 # 100) - h) <= level s' j.
Proof. intros He Hcl Hj Hr. intros. eapply (days_floor sp nf k e He m L climate); eauto. apply rocky_spared, Hr. Qed.
Lemma limits_all sp nf k e m L climate n t0 past s s' t j : sound_setup nf k e -> plain_climate sp nf k climate -> sound_state nf k s -> equal_layers L s -> fits m s ->
  days sp k e m climate n t0 past s = Ok (Some (s', t)) -> (forall y, In y t -> gentle k L y) -> (j < number_of_cells k)%nat ->
  - (can_carry_in t j * (dt k / T k)) <= sediment e (level s' j - level s j - lifted_in t j) <= does_carry_in t j * (dt k / T k).
Proof. intros He Hc Hs HL Hf H Hg Hj. exact (days_limits sp nf k e He m L climate Hc n t0 past s s' t Hs HL Hf H Hg j Hj). Qed.
Lemma bare_all sp nf k e m L climate n t0 past s s' t j : sound_setup nf k e -> plain_climate sp nf k climate -> (j < number_of_cells k)%nat -> (forall past ws, blow (climate past) = Some ws -> can_carry ws j == 0) -> never_lowered j climate ->
  sound_state nf k s -> equal_layers L s -> fits m s -> days sp k e m climate n t0 past s = Ok (Some (s', t)) -> (forall y, In y t -> gentle k L y) -> level s j <= level s' j.
Proof. intros He Hc Hj Hz Hn Hs HL Hf H Hg. exact (days_bare sp nf k e He m L climate j Hc Hj Hz Hn n t0 past s s' t Hs HL Hf H Hg). Qed.
