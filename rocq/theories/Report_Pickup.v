(** Proofs about the pickup in the output. *)
From Coq Require Import QArith Lia Lqa List Bool Arith Setoid.
From Verif Require Import Base Num Utils_Model Utils_Spec Utils_Proofs Bed_Model Bed_Spec Bed_Proofs Solver_Model Solver_Spec Linear Solver_Proofs Solver_Iter Solver_Balance Solver_Cases Run_Model Run_Spec Run_Proofs Run_Whole Causal_Run Report_Model Report_Spec.
Import ListNotations.
Open Scope Q_scope.

Lemma update_cell_net nf any e b m p m' dm' p' : length p = nf -> sound_layers nf m -> (forall i, nth i p 0 <= nth i (hd [] m) 0) -> net_deposit p < qsum (hd [] m) ->
  update_cell any e b m p = (m', dm', p') -> dm' == - qsum p'.
Proof.
  intros Lp (M1 & M2 & M3 & M4) Hp Hd H. destruct m as [|top rest]; [contradiction|]. cbn [hd] in *. unfold update_cell in H. cbv zeta in H.
  destruct (prevent1_spec top rest (exchanged p) p) as (top1 & dm1 & p1 & E & L1 & L2 & E1 & E2 & E3 & _).
  - rewrite Lp. apply M2. left; reflexivity.
  - reflexivity.
  - apply M3. left; reflexivity.
  - exact Hp.
  - rewrite E in H. rewrite (prevent2_small _ (top1 :: rest)) in H.
    + injection H as _ <- <-. exact E2.
    + cbn [top_mass]. rewrite E3. apply M4. left; reflexivity.
    + cbn [top_mass]. rewrite E3, E1. exact Hd.
Qed.
Section Pickup.
Variables (sp : (nat -> nat -> Q) -> (nat -> Q) -> nat -> Q) (nf : nat) (k : cfg) (e : setup) (g : nat -> nat -> Q).
Hypothesis (He : sound_setup nf k e).
Lemma step_pickup t0 s ws s1 os j : sound_state nf k s -> length ws = nf -> (forall w, In w ws -> fair_wind sp k g w) -> step sp k e t0 s ws = Ok (Some (s1, os)) ->
  (forall o, In o os -> converged o = true) -> moderate (sand s) os -> (j < number_of_cells k)%nat -> pickup_of s1 j == eroded e s s1 j.
Proof.
  intros Hs Hl Hw H Hv Hm Hj. destruct (picked_within nf k e He sp g t0 s ws s1 os Hs Hl Hw H Hv) as (Lo & Pw). destruct (step_inv _ _ _ _ _ _ _ _ H) as (w & _ & _ & _ & Es).
  pose proof Hs as (_ & _ & L & Sl). destruct (nth_error (sand s) j) as [a|] eqn:E; [|apply nth_error_None in E; lia].
  destruct (update_nth (bedp e) _ j _ _ (handed_nth e os (sand s) j a E)) as (m & dm & p & E1 & E2). fold (settle (bedp e) (base e) os (sand s)) in E2. rewrite <- Es in E2.
  unfold pickup_of, eroded, level. rewrite E, E2. cbn [handed fst snd Bed_Model.mass Bed_Model.pickup zb] in *.
  pose proof He as (_ & _ & _ & _ & _ & _ & _ & _ & _ & _ & Hb & Hr). rewrite Hb.
  apply (update_cell_net nf) in E1; [|unfold picked; rewrite map_length; exact Lo | apply Sl; eapply nth_error_In; exact E | apply (Pw j a E) | apply (Hm j a E)].
  set (D := rhog (bedp e) * (1 - porosity (bedp e))) in *. rewrite E1. field. lra.
Qed.
Lemma history_pickup : forall weather t0 s s' trace h j, sound_state nf k s -> fair_weather sp nf k g weather -> run sp k e t0 s weather = Ok (Some (s', trace)) -> history sp k e t0 s weather = Ok (Some h) ->
  (forall os, In os trace -> smooth (sand s) os) -> always_windy weather -> (j < number_of_cells k)%nat -> pickup_sum h j == eroded e s s' j.
Proof.
  induction weather as [|[ws|] weather IH]; intros t0 s s' trace h j Hs Hf H Hh Hsm Ha Hj; cbn [run history] in H, Hh.
  - injection H as <- <-. injection Hh as <-. unfold pickup_sum, eroded. cbn. ring.
  - destruct (step sp k e t0 s ws) as [[[s2 os]|]|] eqn:E; cbn [bind] in H, Hh; try discriminate.
    destruct (run sp k e false s2 weather) as [[[s3 t]|]|] eqn:R; cbn [bind] in H; try discriminate. destruct (history sp k e false s2 weather) as [[h2|]|] eqn:R'; cbn [bind] in Hh; try discriminate.
    injection H as <- <-. injection Hh as <-. destruct (Hf ws (or_introl eq_refl)) as (Ln & Fa).
    destruct (smooth_parts nf k e sp g t0 s ws s2 os He Ln Hs Fa E (Hsm os (or_introl eq_refl))) as (V & M).
    destruct (step_balance sp nf k e g He t0 s ws s2 os Hs Ln Fa E V M) as (B1 & B2 & _).
    pose proof (IH false s2 s3 t h2 j B1 (fun ws Hi => Hf ws (or_intror Hi)) R R' (fun x Hi => smooth_later (sand s) (sand s2) x B2 (Hsm x (or_intror Hi))) (fun Hi => Ha (or_intror Hi)) Hj) as I.
    pose proof (step_pickup t0 s ws s2 os j Hs Ln Fa E V M Hj) as P. unfold pickup_sum in *. cbn [map qsum fold_right]. fold (qsum (map (fun s => pickup_of s j) h2)). rewrite I, P. unfold eroded. ring.
  - exfalso. apply Ha. left; reflexivity.
Qed.
(** With calm steps what was taken up last counts again in each of them. *)
Lemma history_calm n : forall t0 s h j, history sp k e t0 s (repeat None n) = Ok (Some h) -> pickup_sum h j == inject_Z (Z.of_nat n) * pickup_of s j.
Proof.
  induction n as [|n IH]; intros t0 s h j H; cbn [repeat history] in H.
  - injection H as <-. unfold pickup_sum. cbn. ring.
  - destruct (history sp k e false s (repeat None n)) as [[h2|]|] eqn:E; cbn [bind] in H; try discriminate. injection H as <-. specialize (IH false s h2 j E). unfold pickup_sum in *. cbn [map qsum fold_right].
    fold (qsum (map (fun s => pickup_of s j) h2)). rewrite IH, Nat2Z.inj_succ, <- Z.add_1_r, inject_Z_plus. change (inject_Z 1) with 1. ring.
Qed.
Lemma history_app : forall weather t0 s s' trace rest h, run sp k e t0 s weather = Ok (Some (s', trace)) -> history sp k e t0 s (weather ++ rest) = Ok (Some h) ->
  exists h1 h2, history sp k e t0 s weather = Ok (Some h1) /\ history sp k e (match weather with [] => t0 | _ => false end) s' rest = Ok (Some h2) /\ h = h1 ++ h2.
Proof.
  induction weather as [|[ws|] weather IH]; intros t0 s s' trace rest h H Hh; cbn [run history app] in H, Hh.
  - injection H as <- <-. exists [], h. split; [reflexivity|]. split; [exact Hh | reflexivity].
  - cbn [history]. destruct (step sp k e t0 s ws) as [[[s2 os]|]|]; cbn [bind] in *; try discriminate. destruct (run sp k e false s2 weather) as [[[s3 t]|]|] eqn:R; cbn [bind] in H; try discriminate.
    destruct (history sp k e false s2 (weather ++ rest)) as [[h3|]|] eqn:E; cbn [bind] in Hh; try discriminate. injection H as <- _. injection Hh as <-.
    destruct (IH false s2 s3 t rest h3 R E) as (h1 & h2 & A & B & ->). exists (s2 :: h1), h2. rewrite A. cbn [bind]. split; [reflexivity|]. split; [destruct weather; exact B | reflexivity].
  - cbn [history]. destruct (run sp k e false s weather) as [[[s3 t]|]|] eqn:R; cbn [bind] in H; try discriminate.
    destruct (history sp k e false s (weather ++ rest)) as [[h3|]|] eqn:E; cbn [bind] in Hh; try discriminate. injection H as <- _. injection Hh as <-.
    destruct (IH false s s3 t rest h3 R E) as (h1 & h2 & A & B & ->). exists (s :: h1), h2. rewrite A. cbn [bind]. split; [reflexivity|]. split; [destruct weather; exact B | reflexivity].
Qed.
Lemma history_then_calm weather t0 s s' trace n h j : sound_state nf k s -> fair_weather sp nf k g weather -> run sp k e t0 s weather = Ok (Some (s', trace)) -> (forall os, In os trace -> smooth (sand s) os) -> always_windy weather ->
  history sp k e t0 s (weather ++ repeat None n) = Ok (Some h) -> (j < number_of_cells k)%nat -> pickup_sum h j == eroded e s s' j + inject_Z (Z.of_nat n) * pickup_of s' j.
Proof.
  intros Hs Hf H Hsm Ha Hh Hj. destruct (history_app weather t0 s s' trace (repeat None n) h H Hh) as (h1 & h2 & A & B & ->).
  pose proof (history_pickup weather t0 s s' trace h1 j Hs Hf H A Hsm Ha Hj) as P. pose proof (history_calm n _ s' h2 j B) as C. unfold pickup_sum in *. rewrite map_app, qsum_app, P, C. reflexivity.
Qed.
End Pickup.
Lemma pickup_windy sp nf k e g weather t0 s s' trace h j : sound_setup nf k e -> sound_state nf k s -> fair_weather sp nf k g weather -> run sp k e t0 s weather = Ok (Some (s', trace)) -> history sp k e t0 s weather = Ok (Some h) ->
  (forall os, In os trace -> smooth (sand s) os) -> always_windy weather -> (j < number_of_cells k)%nat -> pickup_sum h j == eroded e s s' j.
Proof. intros He. apply (history_pickup sp nf k e g He). Qed.
Lemma pickup_calm sp nf k e g weather t0 s s' trace n h j : sound_setup nf k e -> sound_state nf k s -> fair_weather sp nf k g weather -> run sp k e t0 s weather = Ok (Some (s', trace)) -> (forall os, In os trace -> smooth (sand s) os) -> always_windy weather ->
  history sp k e t0 s (weather ++ repeat None n) = Ok (Some h) -> (j < number_of_cells k)%nat -> pickup_sum h j == eroded e s s' j + inject_Z (Z.of_nat n) * pickup_of s' j.
Proof. intros He. apply (history_then_calm sp nf k e g He). Qed.
