(** Proofs about the names of methods. *)
From Verif Require Import Base Choice_Model Choice_Spec.

(** A member of a list that is written out. *)
Ltac listed := unfold known, documented, documented_elsewhere, undocumented; cbn [In app]; repeat first [left; reflexivity | right].
Ltac each H := cbn [In] in H; repeat (destruct H as [H|H]; [injection H as <- <-; listed|]); destruct H.

Lemma lower_same c d : same_letter c d -> lower c = lower d.
Proof.
  intros [->|(i & Hi & H)]; [reflexivity|].
  do 26 (destruct i as [|i]; [destruct H as [[-> ->]|[-> ->]]; reflexivity|]). lia.
Qed.
Lemma lower_same_name v w : same_name v w -> map lower v = map lower w.
Proof. induction 1 as [|c d v w H _ IH]; cbn [map]; [reflexivity|]. now rewrite IH, (lower_same _ _ H). Qed.
Lemma chain_picks v l o o' b : (forall b, o <> Picks b) -> (forall b, o' <> Picks b) -> chain v l o = Picks b -> chain v l o' = Picks b.
Proof.
  intros Ho Ho'. induction l as [|[n b'] l IH]; cbn [chain]; [intros H; now destruct (Ho b)|].
  destruct (text_eqb v n); [exact (fun H => H)|exact IH].
Qed.

Lemma capitals o v w b : In o tolerant -> same_name v w -> pick o v = Picks b <-> pick o w = Picks b.
Proof.
  intros Ho H. pose proof (lower_same_name _ _ H) as E.
  cbn [tolerant In] in Ho. destruct Ho as [<-|[<-|[<-|[<-|[<-|[]]]]]]; cbn [pick];
    unfold pick_solver, pick_gw, pick_threshold, pick_moist, pick_transport; rewrite E; try reflexivity;
    split; apply chain_picks; intros; discriminate.
Qed.

Lemma chain_in v l o b : chain v l o = Picks b -> (forall b, o <> Picks b) -> In (v, b) l.
Proof.
  intros H Ho. induction l as [|[n b'] l IH]; cbn [chain] in H; [now destruct (Ho b)|].
  destruct (text_eqb_spec v n) as [->|]; [injection H as ->; now left|right; auto].
Qed.
Lemma chain_cases v l o : (exists b, chain v l o = Picks b /\ In (v, b) l) \/ chain v l o = o.
Proof.
  induction l as [|[n b] l IH]; cbn [chain]; [now right|].
  destruct (text_eqb_spec v n) as [->|]; [left; exists b; split; [reflexivity|now left]|].
  destruct IH as [(b' & E & H)|E]; [left; exists b'; split; [exact E|now right]|now right].
Qed.

(** A name in small letters is the same name as the one given. *)
Lemma same_letter_lower c : same_letter c (lower c).
Proof.
  unfold lower. cbv zeta. destruct ((65 <=? nat_of_ascii c) && (nat_of_ascii c <=? 90)) eqn:E; [right|now left].
  apply andb_prop in E. destruct E as [E1 E2]. apply Nat.leb_le in E1, E2.
  exists (nat_of_ascii c - 65). split; [lia|]. left. split.
  - replace (65 + (nat_of_ascii c - 65)) with (nat_of_ascii c) by lia. symmetry. apply ascii_nat_embedding.
  - f_equal. lia.
Qed.
Lemma same_name_lower v : same_name v (map lower v).
Proof. induction v; constructor; [apply same_letter_lower|assumption]. Qed.
Lemma same_name_refl v : same_name v v.
Proof. induction v; constructor; [now left|assumption]. Qed.

Lemma refused o v : In o refusing ->
  (exists n b, In (n, b) (known o) /\ same_name v n /\ pick o v = Picks b) \/
  (exists pre post, pick o v = Refuses (pre ++ v ++ post)).
Proof.
  intros Ho. cbn [refusing In] in Ho. destruct Ho as [<-|[<-|[<-|[<-|[]]]]]; cbn [pick].
  - unfold pick_scheme. destruct (chain_cases v [(txt "euler_forward", Explicit); (txt "euler_backward", Implicit); (txt "crank_nicolson", CrankNicolson)]
      (Refuses (txt "Unknown scheme [" ++ v ++ txt "]"))) as [(b & E & H)|E]; [left; exists v, b|right; eauto].
    split; [|split; [apply same_name_refl|exact E]]. each H.
  - unfold pick_moist. match goal with |- context [chain ?a ?l ?o] => destruct (chain_cases a l o) as [(b & E & H)|E] end;
      [left; exists (map lower v), b|right; eauto].
    split; [|split; [apply same_name_lower|exact E]]. each H.
  - unfold pick_transport. match goal with |- context [chain ?a ?l ?o] => destruct (chain_cases a l o) as [(b & E & H)|E] end;
      [left; exists (map lower v), b|right; eauto].
    split; [|split; [apply same_name_lower|exact E]]. each H.
  - unfold pick_convention. match goal with |- context [chain ?a ?l ?o] => destruct (chain_cases a l o) as [(b & E & H)|E] end;
      [left; exists v, b|right; exists (txt "Unknown convention: "), []; rewrite app_nil_r; exact E].
    split; [|split; [apply same_name_refl|exact E]]. each H.
Qed.

Lemma understood o : Forall (fun nb : text * branch => pick o (fst nb) = Picks (snd nb)) (known o).
Proof. destruct o; repeat constructor. Qed.
Lemma meant o n b : In (n, b) (known o) -> pick o n = Picks b.
Proof. exact (fun H => proj1 (Forall_forall _ _) (understood o) _ H). Qed.

Lemma mind_capitals o : ~ In o tolerant -> exists n b v, In (n, b) (documented o) /\ same_name v n /\ pick o v <> Picks b.
Proof.
  assert (K : forall a b c d, same_letter a b -> same_name c d -> same_name (a :: c) (b :: d)) by (intros; now constructor).
  assert (C : forall i c, i < 26 -> same_name (ascii_of_nat (65 + i) :: c) (ascii_of_nat (97 + i) :: c)).
  { intros i c Hi. apply K; [right; exists i; tauto|apply same_name_refl]. }
  intros Ho. destruct o; try (exfalso; apply Ho; cbn; tauto).
  - exists (txt "euler_forward"), Explicit, (txt "Euler_forward"). split; [listed|split; [apply (C 4); lia|discriminate]].
  - exists (txt "constant"), RoughConstant, (txt "Constant"). split; [listed|split; [apply (C 2); lia|discriminate]].
  - exists (txt "duran"), SpeedDuran, (txt "Duran"). split; [listed|split; [apply (C 3); lia|discriminate]].
  - exists (txt "cartesian"), Cartesian, (txt "Cartesian"). split; [listed|split; [apply (C 2); lia|discriminate]].
  - exists (txt "okin"), Okin, (txt "Okin"). split; [listed|split; [apply (C 14); lia|discriminate]].
  - exists (txt "orig"), GrowthOrig, (txt "Orig"). split; [listed|split; [apply (C 14); lia|discriminate]].
Qed.
(** Another method without a word. *)
Lemma other_method : exists o v w b b', same_name v w /\ pick o v = Picks b /\ pick o w = Picks b' /\ b <> b'.
Proof.
  exists Vegshear, (txt "Okin"), (txt "okin"), Raupach, Okin.
  split; [|split; [reflexivity|split; [reflexivity|discriminate]]].
  constructor; [right; exists 14; split; [lia|left; split; reflexivity]|apply same_name_refl].
Qed.

(** What the other choices do with a name that does not exist. *)
Lemma what_happens o v : ~ In o refusing -> (forall n b, In (n, b) (known o) -> ~ same_name v n) -> pick o v = unrefused o.
Proof.
  intros Ho H.
  assert (N : forall n b, In (n, b) (known o) -> text_eqb v n = false).
  { intros n b Hk. apply text_eqb_neq. intros ->. exact (H n b Hk (same_name_refl n)). }
  assert (M : forall n b, In (n, b) (known o) -> text_eqb (map lower v) n = false).
  { intros n b Hk. apply text_eqb_neq. intros <-. exact (H _ b Hk (same_name_lower v)). }
  assert (CN : forall l r, (forall n b, In (n, b) l -> In (n, b) (known o)) -> chain v l r = r).
  { intros l r. induction l as [|[n b] l IH]; intros Hl; cbn [chain]; [reflexivity|].
    rewrite (N n b) by (apply Hl; now left). apply IH. intros; apply Hl; now right. }
  assert (CM : forall l r, (forall n b, In (n, b) l -> In (n, b) (known o)) -> chain (map lower v) l r = r).
  { intros l r. induction l as [|[n b] l IH]; intros Hl; cbn [chain]; [reflexivity|].
    rewrite (M n b) by (apply Hl; now left). apply IH. intros; apply Hl; now right. }
  destruct o; try (exfalso; apply Ho; cbn; tauto); cbn [pick unrefused].
  - apply CM. intros n b Hi. each Hi.
  - apply CM. intros n b Hi. each Hi.
  - apply CM. intros n b Hi. each Hi.
  - unfold pick_roughness, sequence. cbn [fold_left fst snd].
    rewrite (N (txt "constant") RoughConstant), (N (txt "constant_nikuradse") RoughNikuradse), (N (txt "mean_grainsize_initial") RoughMeanInitial),
      (N (txt "mean_grainsize_adaptive") RoughMeanAdaptive), (N (txt "median_grainsize_adaptive") RoughMedianAdaptive),
      (N (txt "vanrijn_strypsteen") RoughVanRijn); [reflexivity|listed..].
  - apply CN. intros n b Hi. each Hi.
  - apply CN. intros n b Hi. each Hi.
  - apply CN. intros n b Hi. each Hi.
Qed.

Lemma not_refused : exists o v, (forall n b, In (n, b) (known o) -> ~ same_name v n) /\ (forall m, pick o v <> Refuses m) /\
  (exists b, pick o v = Picks b).
Proof.
  exists Veggrowth, (txt "duran"). split; [|split; [discriminate|exists GrowthDuranMoore; reflexivity]].
  intros n b H Hn. pose proof (lower_same_name _ _ Hn) as L.
  cbn in H; repeat (destruct H as [H|H]; [injection H as <- <-; discriminate L|]); contradiction.
Qed.

Lemma misnamed : exists o n b, In (n, b) (documented_otherwise o) /\ pick o n <> Picks b.
Proof. exists MoistProcess, (txt "surface_moisture"), SurfMoisture. split; [cbn; tauto|discriminate]. Qed.
Lemma misnamed_all o n b : In (n, b) (documented_otherwise o) -> forall b', pick o n <> Picks b'.
Proof. intros H. destruct o; cbn in H; try contradiction; destruct H as [H|[]]; injection H as <- <-; discriminate. Qed.

(** ** Cases *)
Lemma case_mind : ~ In Grainspeed tolerant /\ pick Grainspeed (txt "duran") = Picks SpeedDuran /\ pick Grainspeed (txt "Duran") = Fails NameError.
Proof. split; [intros H; cbn in H; repeat (destruct H as [H|H]; [discriminate H|]); contradiction|split; reflexivity]. Qed.
Lemma case_capitals : In Transport tolerant /\ same_name (txt "Bagnold_GS") (txt "bagnold_gs") /\ pick Transport (txt "Bagnold_GS") = Picks BagnoldGs.
Proof.
  split; [cbn; tauto|split; [|reflexivity]].
  assert (C : forall i v w, i < 26 -> same_name v w -> same_name (ascii_of_nat (65 + i) :: v) (ascii_of_nat (97 + i) :: w)).
  { intros i v w Hi H. constructor; [right; exists i; tauto|exact H]. }
  apply (C 1); [lia|]. repeat (constructor; [now left|]). apply (C 6); [lia|]. apply (C 18); [lia|]. constructor.
Qed.
Lemma case_refused : In Scheme refusing /\ pick Scheme (txt "implicit") = Refuses (txt "Unknown scheme [implicit]").
Proof. split; [cbn; tauto|reflexivity]. Qed.
Lemma case_what : ~ In Roughness refusing /\ forall n b, In (n, b) (known Roughness) -> ~ same_name (txt "log_law") n.
Proof.
  split; [intros H; cbn in H; repeat (destruct H as [H|H]; [discriminate H|]); contradiction|].
  intros n b H Hn. pose proof (lower_same_name _ _ Hn) as E.
  cbn in H; repeat (destruct H as [H|H]; [injection H as <- <-; discriminate E|]); contradiction.
Qed.
Lemma case_meant : In (txt "pieter", Pieter) (known Solver) /\ List.length (known MoistThreshold) = 10.
Proof. split; [listed|reflexivity]. Qed.
Lemma case_misnamed : In (txt "strypsteen_vanrijn", RoughVanRijn) (documented_otherwise Roughness) /\ pick Roughness (txt "strypsteen_vanrijn") = Fails NameError.
Proof. split; [cbn; tauto|reflexivity]. Qed.
