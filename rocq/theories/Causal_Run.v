(** What lies downwind does not matter: several fractions, the bed, and whole runs. *)
From Coq Require Import QArith Lia Lqa List Bool Arith Setoid.
From Verif Require Import Base Num Utils_Model Utils_Spec Utils_Proofs Bed_Model Bed_Spec Bed_Proofs Solver_Model Solver_Spec Linear Solver_Proofs Solver_Iter Solver_Balance Solver_Cases Run_Model Run_Spec Run_Proofs Run_Whole Units_Spec Units_Proofs Units_Run Causal_Spec Causal_Proofs.
Import ListNotations.
Open Scope Q_scope.

Lemma same_times a b : same a b <-> times 1 a b.
Proof. split; induction 1; constructor; unfold in_unit in *; try assumption; lra. Qed.
Lemma rc_cell k r j : (r <= ny k)%nat -> (j <= nx k)%nat -> (r * S (nx k) + j < number_of_cells k)%nat.
Proof. intros Hr Hj. rewrite <- cells_eq. apply (rc_lt k); assumption. Qed.

(** ** All fractions *)
Section Fractions.
Variables (sp sp' : (nat -> nat -> Q) -> (nat -> Q) -> nat -> Q) (k : cfg) (nf c : nat).
Hypothesis Hk : good_cfg k.
Hypothesis Hc : (c < nx k)%nat.
Definition weights_upto (w w' : nat -> list Q) : Prop := forall r j, (r <= ny k)%nat -> (j <= c)%nat -> times 1 (w (r * S (nx k) + j)%nat) (w' (r * S (nx k) + j)%nat).
Lemma good_posed s fd w : good s k fd -> Solver_Spec.all_nonneg (number_of_cells k) w -> well_posed s k (fst fd) (snd fd) w.
Proof.
  destruct Hk as (K1 & K2 & K3 & K4). intros (G1 & G2 & G3 & G4 & G5 & G6 & G7 & G8 & G9) Hw.
  split; [exact K1|]. split; [exact G1|]. split; [exact G2|]. split; [apply onshore_gathers; assumption|]. split; [exact G5|]. split; [intros _; exact K3|].
  split; [exact G8|]. split; [exact G6|]. split; [exact K4|]. split; [exact G7 | exact Hw].
Qed.
Lemma fractions_upto : forall fs fs', Forall2 (class_upto k c) fs fs' -> forall i w w' os os' v v', (i + length fs <= nf)%nat -> weights_ok nf k i w -> weights_ok nf k i w' -> weights_upto w w' ->
  (forall fd, In fd fs -> good sp k fd) -> (forall fd, In fd fs' -> good sp' k fd) -> fractions sp k i fs w = Ok (Some (os, v)) -> fractions sp' k i fs' w' = Ok (Some (os', v')) ->
  (forall o, In o os -> converged o = true) -> (forall o, In o os' -> converged o = true) -> Forall2 (same_outcome_upto k c) os os'.
Proof.
  induction 1 as [|[f d] [f' d'] fs fs' (H1 & H2) H IH]; intros i w w' os os' v v' Hn Hw Hw' Ha Hg Hg' E E' Hv Hv'; cbn [fractions] in E, E'.
  - injection E as <- _. injection E' as <- _. constructor.
  - cbn [length] in Hn. pose proof (start_weight nf k i w ltac:(lia) Hw) as S. pose proof (start_weight nf k i w' ltac:(lia) Hw') as S'.
    assert (Hr : weights_upto (fun j => renormalize_weights (w j) i) (fun j => renormalize_weights (w' j) i)) by (intros r j Hr Hj; apply renorm_in, Ha; assumption).
    set (u := memo (cells k) (fun c => nth i (renormalize_weights (w c) i) 0)) in *. set (u' := memo (cells k) (fun c => nth i (renormalize_weights (w' c) i) 0)) in *.
    assert (Nu : forall j, (j < number_of_cells k)%nat -> 0 <= u j) by (intros j Hj; destruct (S j Hj) as (-> & R); apply R).
    assert (Nu' : forall j, (j < number_of_cells k)%nat -> 0 <= u' j) by (intros j Hj; destruct (S' j Hj) as (-> & R); apply R).
    destruct (solve_fraction sp k f d u) as [[o|]|] eqn:F; cbn [bind] in E; try discriminate. destruct (solve_fraction sp' k f' d' u') as [[o'|]|] eqn:F'; cbn [bind] in E'; try discriminate.
    destruct (fractions sp k _ fs _) as [[[os1 w1]|]|] eqn:G; cbn [bind] in E; try discriminate. destruct (fractions sp' k _ fs' _) as [[[os1' w1']|]|] eqn:G'; cbn [bind] in E'; try discriminate.
    injection E as <- <-. injection E' as <- <-.
    pose proof (Hg _ (or_introl eq_refl)) as Hgd. pose proof (Hg' _ (or_introl eq_refl)) as Hgd'.
    assert (O : same_outcome_upto k c o o').
    { apply (downwind sp sp' k f f' d d' u u' c o o'); try assumption; try (apply Hv; left; reflexivity); try (apply Hv'; left; reflexivity).
      - apply (good_posed sp (f, d) u Hgd Nu).
      - apply (good_posed sp' (f', d') u' Hgd' Nu').
      - split; [exact Hc|]. split; [intros r j Hr0 Hj; apply Hgd; lia|]. split; [exact H1|]. split; [exact H2|]. intros r j Hr0 Hj. unfold at_cell.
        destruct (S _ (rc_cell k r j Hr0 ltac:(lia))) as (-> & _). destruct (S' _ (rc_cell k r j Hr0 ltac:(lia))) as (-> & _). rewrite (tm_nth _ _ _ (Hr r j Hr0 Hj)). ring. }
    constructor; [exact O|].
    destruct (good_solution sp k (f, d) u o Hk Hgd Nu F (Hv _ (or_introl eq_refl))) as (_ & S2). destruct (good_solution sp' k (f', d') u' o' Hk Hgd' Nu' F' (Hv' _ (or_introl eq_refl))) as (_ & S2').
    eapply IH; [| | | | | | exact G | exact G' | |].
    + lia.
    + apply weights_next; [lia | exact Hw|]. intros j Hj. destruct (S j Hj) as (R & _). rewrite <- R. apply S2, Hj.
    + apply weights_next; [lia | exact Hw'|]. intros j Hj. destruct (S' j Hj) as (R & _). rewrite <- R. apply S2', Hj.
    + intros r j Hr0 Hj. apply Units_Run.set_nth_in; [|apply Hr; assumption]. destruct O as (_ & _ & O). specialize (O r j Hr0 Hj). unfold at_cell in O. unfold in_unit. rewrite O. ring.
    + intros fd Hi. apply Hg. right; exact Hi.
    + intros fd Hi. apply Hg'. right; exact Hi.
    + intros x Hx. apply Hv. right; exact Hx.
    + intros x Hx. apply Hv'. right; exact Hx.
Qed.
End Fractions.

(** ** The bed *)
Lemma update_cell_any nf any e b m p : length p = nf -> sound_layers nf m -> (forall i, nth i p 0 <= nth i (hd [] m) 0) -> net_deposit p < qsum (hd [] m) -> update_cell any e b m p = update_cell false e b m p.
Proof.
  intros Lp (M1 & M2 & M3 & M4) Hp Hd. destruct m as [|top rest]; [contradiction|]. cbn [hd] in *. unfold update_cell. cbv zeta.
  destruct (prevent1_spec top rest (exchanged p) p) as (top1 & dm1 & p1 & E & L1 & L2 & E1 & E2 & E3 & _).
  - rewrite Lp. apply M2. left; reflexivity.
  - reflexivity.
  - apply M3. left; reflexivity.
  - exact Hp.
  - rewrite E. rewrite !(prevent2_small _ (top1 :: rest)); try reflexivity; cbn [top_mass]; rewrite E3; try (apply M4; left; reflexivity); rewrite E1; exact Hd.
Qed.
Lemma ground_in a a' : same_ground a a' <-> Forall2 (times 1) (Bed_Model.mass a) (Bed_Model.mass a') /\ zb a == zb a' /\ zs a == zs a'.
Proof.
  unfold same_ground. assert (E : Forall2 same (Bed_Model.mass a) (Bed_Model.mass a') <-> Forall2 (times 1) (Bed_Model.mass a) (Bed_Model.mass a')); [|tauto].
  split; induction 1; constructor; try assumption; apply same_times; assumption.
Qed.
Section Step.
Variables (sp sp' : (nat -> nat -> Q) -> (nat -> Q) -> nat -> Q) (nf : nat) (k : cfg) (e : setup) (g g' : nat -> nat -> Q) (c : nat).
Hypothesis (He : sound_setup nf k e).
Hypothesis Hc : (c < nx k)%nat.
Lemma handed_nth os cs i a : nth_error cs i = Some a -> nth_error (map (handed os (base e)) (combine (seq 0 (length cs)) cs)) i = Some (handed os (base e) (i, a)).
Proof. intros H. rewrite nth_error_map, (combine_seq_nth cs 0 i a H). reflexivity. Qed.
Lemma settle_ground os os' cs cs' i a a' b b' : nth_error cs i = Some a -> nth_error cs' i = Some a' -> same_ground a a' -> times 1 (picked os i) (picked os' i) ->
  length os = nf -> length os' = nf -> sound_layers nf (Bed_Model.mass a) -> sound_layers nf (Bed_Model.mass a') ->
  (forall n, nth n (picked os i) 0 <= nth n (hd [] (Bed_Model.mass a)) 0) -> (forall n, nth n (picked os' i) 0 <= nth n (hd [] (Bed_Model.mass a')) 0) ->
  net_deposit (picked os i) < qsum (hd [] (Bed_Model.mass a)) -> net_deposit (picked os' i) < qsum (hd [] (Bed_Model.mass a')) ->
  nth_error (settle (bedp e) (base e) os cs) i = Some b -> nth_error (settle (bedp e) (base e) os' cs') i = Some b' -> same_ground b b'.
Proof.
  intros H H' Hg Hp L L' S S' Q1 Q1' Q2 Q2' E E'. unfold settle in E, E'.
  destruct (update_nth (bedp e) _ i _ _ (handed_nth os cs i a H)) as (m & dm & p & E1 & E2). destruct (update_nth (bedp e) _ i _ _ (handed_nth os' cs' i a' H')) as (m' & dm' & p' & E1' & E2').
  rewrite E2 in E. rewrite E2' in E'. injection E as <-. injection E' as <-. cbn [handed fst snd Bed_Model.mass Bed_Model.pickup zb zs] in *.
  rewrite (update_cell_any nf) in E1 by (assumption || (unfold picked; rewrite map_length; assumption)). rewrite (update_cell_any nf) in E1' by (assumption || (unfold picked; rewrite map_length; assumption)).
  apply ground_in in Hg. destruct Hg as (G1 & G2 & G3). assert (Ee : in_unit 1 (Bed_Model.max_error (bedp e)) (Bed_Model.max_error (bedp e))) by (unfold in_unit; ring).
  pose proof (update_cell_in 1 ltac:(lra) false _ _ (base e i) (base e i) _ _ _ _ Ee (tm_refl _) G1 Hp) as (A1 & A2 & A3). rewrite E1, E1' in A1, A2. cbn [fst snd] in A1, A2. unfold in_unit in A2.
  apply ground_in. split; [exact A1|]. cbn [zb zs]. destruct (process_bedupdate (bedp e)), (process_tide (bedp e)); split; rewrite ?A2, ?G2, ?G3; try reflexivity; unfold Qdiv; ring.
Qed.
Lemma ground_top s s' r j : length (sand s) = number_of_cells k -> length (sand s') = number_of_cells k -> same_state_upto k c s s' -> (r <= ny k)%nat -> (j <= c)%nat ->
  times 1 (top_layer s (r * S (nx k) + j)) (top_layer s' (r * S (nx k) + j)).
Proof.
  intros L L' (_ & H) Hr Hj. unfold top_layer. pose proof (rc_cell k r j Hr ltac:(lia)) as Hi. specialize (H r j). set (i := (r * S (nx k) + j)%nat) in *.
  destruct (nth_error (sand s) i) as [a|] eqn:E; [|apply nth_error_None in E; lia]. destruct (nth_error (sand s') i) as [a'|] eqn:E'; [|apply nth_error_None in E'; lia].
  destruct (proj1 (ground_in a a') (H a a' Hr Hj eq_refl eq_refl)) as (G & _). destruct G; cbn [hd]; [constructor | assumption].
Qed.
Lemma sat_upto s s' ws ws' : Forall2 (agree_upto k c) (air s) (air s') -> Forall2 (wind_upto k c) ws ws' -> agree_upto k c (saturation s ws) (saturation s' ws').
Proof.
  intros Ha Hw r j Hr Hj. unfold at_cell, saturation. generalize dependent ws'. generalize dependent ws. induction Ha as [|a a' l l' H Ha IH]; intros ws ws' [|w w' vs vs' Hw1 Hw]; cbn [map2]; try reflexivity.
  unfold qsum. cbn [fold_right]. specialize (IH vs vs' Hw). unfold qsum in IH. rewrite IH. apply Qplus_inj_r. destruct Hw1 as (_ & W & _). specialize (W r j Hr Hj). specialize (H r j Hr Hj). unfold at_cell in W, H.
  rewrite (qltb_same 0 (wCu w (r * S (nx k) + j)) 0 (wCu w' (r * S (nx k) + j))) by (assumption || reflexivity). destruct (Qltb _ _); [rewrite W, H|]; reflexivity.
Qed.
Lemma nth_upto l l' i : Forall2 (agree_upto k c) l l' -> agree_upto k c (nth i l (fun _ => 0)) (nth i l' (fun _ => 0)).
Proof. intros H. revert i. induction H; intros [|i]; cbn [nth]; try (intros r j _ _; reflexivity); [assumption | apply IHForall2]. Qed.
Lemma reads_upto s s' ws ws' : length (sand s) = number_of_cells k -> length (sand s') = number_of_cells k -> same_state_upto k c s s' -> Forall2 (wind_upto k c) ws ws' ->
  Forall2 (class_upto k c) (all_reads s ws) (all_reads s' ws').
Proof.
  intros L L' Hs Hw. unfold all_reads. rewrite (Forall2_len _ _ _ Hw).
  assert (G : forall vs vs', Forall2 (wind_upto k c) vs vs' -> forall m, Forall2 (class_upto k c) (map2 (reads s ws) (seq m (length vs')) vs) (map2 (reads s' ws') (seq m (length vs')) vs')).
  { induction 1 as [|v v' vs vs' (W1 & W2 & W3 & W4) H IH]; intros m; cbn [length seq map2]; constructor; [|apply IH]. split; [exact W1|]. cbn [reads snd]. repeat (split; [first [exact W2 | exact W3 | exact W4 | idtac]|]).
    - intros r j Hr Hj. cbn [at_cell Solver_Model.mass]. unfold at_cell. cbn [Solver_Model.mass]. rewrite (tm_nth _ _ _ (ground_top s s' r j L L' Hs Hr Hj)). ring.
    - cbn [lCt]. apply nth_upto, Hs.
    - cbn [sat]. apply sat_upto; [apply Hs | exact Hw]. }
  apply G, Hw.
Qed.
Lemma weights_now_upto s s' ws ws' : length (sand s) = number_of_cells k -> length (sand s') = number_of_cells k -> same_state_upto k c s s' -> Forall2 (wind_upto k c) ws ws' ->
  weights_upto k c (weights_now (bi e) s ws) (weights_now (bi e) s' ws').
Proof.
  intros L L' Hs Hw r j Hr Hj. unfold weights_now. apply (weights_in 1). lra.
  - destruct Hs as (H & _). induction H as [|a a' l l' Ha H IH]; cbn [map]; constructor; [|exact IH]. specialize (Ha r j Hr Hj). unfold at_cell in Ha. unfold in_unit. rewrite Ha. ring.
  - induction Hw as [|a a' l l' (_ & Ha & _) H IH]; cbn [map]; constructor; [|exact IH]. specialize (Ha r j Hr Hj). unfold at_cell in Ha. unfold in_unit. rewrite Ha. ring.
  - apply ground_top; assumption.
Qed.
Lemma picked_upto os os' r j : Forall2 (same_outcome_upto k c) os os' -> (r <= ny k)%nat -> (j <= c)%nat -> times 1 (picked os (r * S (nx k) + j)) (picked os' (r * S (nx k) + j)).
Proof. intros H Hr Hj. unfold picked. induction H as [|o o' os os' (_ & Ho & _) H IH]; cbn [map]; constructor; [|exact IH]. specialize (Ho r j Hr Hj). unfold at_cell in Ho. unfold in_unit. rewrite Ho. ring. Qed.
Lemma picked_within sp0 g0 t0 s ws s1 os : sound_state nf k s -> length ws = nf -> (forall w, In w ws -> fair_wind sp0 k g0 w) -> step sp0 k e t0 s ws = Ok (Some (s1, os)) -> (forall o, In o os -> converged o = true) ->
  length os = nf /\ forall j a, nth_error (sand s) j = Some a -> forall n, nth n (picked os j) 0 <= nth n (hd [] (Bed_Model.mass a)) 0.
Proof.
  clear Hc. intros Hs Hl Hw H Hv. destruct (step_inv _ _ _ _ _ _ _ _ H) as (w & W & F & _ & _). pose proof (setup_cfg nf k e He) as Hk.
  pose proof (start_ok sp0 nf k e g0 He s ws t0 w Hs Hl Hw W) as Hw0. pose proof (reads_good sp0 nf k g0 s ws Hs Hl Hw) as Hg.
  pose proof (fractions_from sp0 k nf Hk (all_reads s ws) 0 w os (oldw s1) ltac:(rewrite reads_length; lia) Hw0 Hg F Hv) as Hfrom.
  assert (Lo : length os = nf) by (rewrite (Forall2_len _ _ _ Hfrom), reads_length; exact Hl). split; [exact Lo|]. intros j a Ha n.
  destruct Hs as (_ & _ & S3 & S4). assert (Hjn : (j < number_of_cells k)%nat) by (rewrite <- S3; apply nth_error_Some; congruence).
  destruct (S4 a (nth_error_In _ _ Ha)) as (M1 & _ & M3 & _). assert (N0 : 0 <= nth n (hd [] (Bed_Model.mass a)) 0) by (apply nth_nonneg; apply M3; destruct (Bed_Model.mass a); [contradiction | left; reflexivity]).
  destruct (nth_error os n) as [o|] eqn:E; [|apply nth_error_None in E; rewrite nth_overflow by (unfold picked; rewrite map_length; exact E); exact N0].
  unfold picked. rewrite (nth_error_nth _ n 0 (map_nth_error (fun o => pickup o j) n os E)).
  assert (Ln : (n < length ws)%nat) by (rewrite Hl, <- Lo; apply nth_error_Some; congruence). destruct (nth_error ws n) as [wi|] eqn:Ew; [|apply nth_error_None in Ew; lia].
  assert (R : nth_error (all_reads s ws) n = Some (reads s ws n wi)) by (apply reads_nth; eauto).
  destruct (Forall2_nth _ _ _ Hfrom n o _ E R) as (w0 & _ & P). pose proof (proj1 (pickup_within sp0 k _ _ _ _ P (Hv o (nth_error_In _ _ E)) j Hjn)) as B. cbn [reads snd Solver_Model.mass] in B. unfold top_layer in B. rewrite Ha in B. exact B.
Qed.
Lemma step_upto t0 s s' ws ws' s1 s1' os os' : sound_state nf k s -> sound_state nf k s' -> length ws = nf -> (forall w, In w ws -> fair_wind sp k g w) -> (forall w, In w ws' -> fair_wind sp' k g' w) ->
  same_state_upto k c s s' -> Forall2 (wind_upto k c) ws ws' -> step sp k e t0 s ws = Ok (Some (s1, os)) -> step sp' k e t0 s' ws' = Ok (Some (s1', os')) ->
  (forall o, In o os -> converged o = true) -> (forall o, In o os' -> converged o = true) -> moderate (sand s) os -> moderate (sand s') os' ->
  same_state_upto k c s1 s1' /\ Forall2 (same_outcome_upto k c) os os'.
Proof.
  intros Hs Hs' Hl Hw Hw' Hst Hws H H' Hv Hv' Hm Hm'. assert (Hl' : length ws' = nf) by (rewrite <- (Forall2_len _ _ _ Hws); exact Hl).
  destruct (picked_within sp g t0 s ws s1 os Hs Hl Hw H Hv) as (Lo & Pw). destruct (picked_within sp' g' t0 s' ws' s1' os' Hs' Hl' Hw' H' Hv') as (Lo' & Pw').
  destruct (step_inv _ _ _ _ _ _ _ _ H) as (w & W & F & Ea & Es). destruct (step_inv _ _ _ _ _ _ _ _ H') as (w' & W' & F' & Ea' & Es').
  pose proof (setup_cfg nf k e He) as Hk. pose proof Hs as (_ & _ & L & Sl). pose proof Hs' as (_ & _ & L' & Sl').
  assert (O : Forall2 (same_outcome_upto k c) os os').
  { apply (fractions_upto sp sp' k nf c Hk Hc _ _ (reads_upto s s' ws ws' L L' Hst Hws) 0%nat w w' os os' (oldw s1) (oldw s1')); try assumption.
    - rewrite reads_length. lia.
    - apply (start_ok sp nf k e g He s ws t0 w Hs Hl Hw W).
    - apply (start_ok sp' nf k e g' He s' ws' t0 w' Hs' Hl' Hw' W').
    - unfold start_weights in W, W'. destruct Hk as (_ & Tk & _). rewrite Tk in W, W'.
      pose proof (weights_now_upto s s' ws ws' L L' Hst Hws) as Ww. destruct t0; [destruct (bedcomp e)|]; injection W as <-; injection W' as <-; try exact Ww. intros r j _ _. apply tm_refl.
    - apply (reads_good sp nf k g s ws Hs Hl Hw).
    - apply (reads_good sp' nf k g' s' ws' Hs' Hl' Hw'). }
  split; [|exact O]. split.
  - rewrite Ea, Ea'. clear - O. induction O as [|o o' os os' (Ho & _) H IH]; cbn [map]; constructor; assumption.
  - intros r j b b' Hr Hj Hb Hb'. rewrite Es in Hb. rewrite Es' in Hb'. pose proof (rc_cell k r j Hr ltac:(lia)) as Hi. set (i := (r * S (nx k) + j)%nat) in *.
    destruct (nth_error (sand s) i) as [a|] eqn:E; [|apply nth_error_None in E; lia]. destruct (nth_error (sand s') i) as [a'|] eqn:E'; [|apply nth_error_None in E'; lia].
    apply (settle_ground os os' (sand s) (sand s') i a a' b b' E E'); try assumption.
    + apply (proj2 Hst r j a a' Hr Hj E E').
    + apply picked_upto; assumption.
    + apply Sl. eapply nth_error_In; exact E.
    + apply Sl'. eapply nth_error_In; exact E'.
    + apply (Pw i a E).
    + apply (Pw' i a' E').
    + apply (Hm i a E).
    + apply (Hm' i a' E').
Qed.
End Step.

(** ** Whole runs *)
Lemma smooth_parts nf k e sp0 g0 t0 s ws s1 os : sound_setup nf k e -> length ws = nf -> sound_state nf k s -> (forall w, In w ws -> fair_wind sp0 k g0 w) -> step sp0 k e t0 s ws = Ok (Some (s1, os)) -> smooth (sand s) os ->
  (forall o, In o os -> converged o = true) /\ moderate (sand s) os.
Proof.
  intros He Hl Hs Hw H [-> | Hsm]; [|exact Hsm]. exfalso. destruct (picked_within nf k e He sp0 g0 t0 s ws s1 [] Hs Hl Hw H ltac:(intros o [])) as (L & _). destruct He as (_ & _ & _ & _ & _ & _ & _ & _ & N & _). cbn in L. lia.
Qed.
Lemma smooth_later cs cs' os : same_layers cs cs' -> smooth cs os -> smooth cs' os.
Proof. intros H [-> | (A & B)]; [left; reflexivity | right]. split; [exact A | apply (moderate_same cs cs' os H B)]. Qed.
Lemma downwind_run sp sp' nf k e g g' c : sound_setup nf k e -> (c < nx k)%nat -> forall weather weather' t0 s s' s1 s1' trace trace',
  sound_state nf k s -> sound_state nf k s' -> fair_weather sp nf k g weather -> fair_weather sp' nf k g' weather' ->
  same_state_upto k c s s' -> Forall2 (hour_upto k c) weather weather' ->
  run sp k e t0 s weather = Ok (Some (s1, trace)) -> run sp' k e t0 s' weather' = Ok (Some (s1', trace')) ->
  (forall os, In os trace -> smooth (sand s) os) -> (forall os, In os trace' -> smooth (sand s') os) ->
  same_state_upto k c s1 s1' /\ Forall2 (Forall2 (same_outcome_upto k c)) trace trace'.
Proof.
  intros He Hc weather weather' t0 s s' s1 s1' trace trace' Hs Hs' Hf Hf' Hst Hw. revert t0 s s' s1 s1' trace trace' Hs Hs' Hf Hf' Hst.
  induction Hw as [|x x' weather weather' Hx Hw IH]; intros t0 s s' s1 s1' trace trace' Hs Hs' Hf Hf' Hst H H' Hsm Hsm'; cbn [run] in H, H'.
  - injection H as <- <-. injection H' as <- <-. split; [exact Hst | constructor].
  - assert (Fw : fair_weather sp nf k g weather) by (intros ws Hi; apply Hf; right; exact Hi). assert (Fw' : fair_weather sp' nf k g' weather') by (intros ws Hi; apply Hf'; right; exact Hi).
    destruct x as [ws|], x' as [ws'|]; cbn [hour_upto] in Hx; try contradiction.
    + destruct (step sp k e t0 s ws) as [[[s2 os]|]|] eqn:E; cbn [bind] in H; try discriminate. destruct (step sp' k e t0 s' ws') as [[[s2' os']|]|] eqn:E'; cbn [bind] in H'; try discriminate.
      destruct (run sp k e false s2 weather) as [[[s3 t]|]|] eqn:R; cbn [bind] in H; try discriminate. destruct (run sp' k e false s2' weather') as [[[s3' t']|]|] eqn:R'; cbn [bind] in H'; try discriminate.
      injection H as <- <-. injection H' as <- <-. destruct (Hf ws (or_introl eq_refl)) as (Ln & Fa). destruct (Hf' ws' (or_introl eq_refl)) as (Ln' & Fa').
      destruct (smooth_parts nf k e sp g t0 s ws s2 os He Ln Hs Fa E (Hsm os (or_introl eq_refl))) as (V & M). destruct (smooth_parts nf k e sp' g' t0 s' ws' s2' os' He Ln' Hs' Fa' E' (Hsm' os' (or_introl eq_refl))) as (V' & M').
      destruct (step_balance sp nf k e g He t0 s ws s2 os Hs Ln Fa E V M) as (B1 & B2 & _). destruct (step_balance sp' nf k e g' He t0 s' ws' s2' os' Hs' Ln' Fa' E' V' M') as (B1' & B2' & _).
      destruct (step_upto sp sp' nf k e g g' c He Hc t0 s s' ws ws' s2 s2' os os' Hs Hs' Ln Fa Fa' Hst Hx E E' V V' M M') as (U1 & U2).
      destruct (IH false s2 s2' s3 s3' t t' B1 B1' Fw Fw' U1 R R') as (I1 & I2).
      * intros x Hi. apply (smooth_later (sand s)); [exact B2 | apply Hsm; right; exact Hi].
      * intros x Hi. apply (smooth_later (sand s')); [exact B2' | apply Hsm'; right; exact Hi].
      * split; [exact I1 | constructor; assumption].
    + destruct (run sp k e false s weather) as [[[s3 t]|]|] eqn:R; cbn [bind] in H; try discriminate. destruct (run sp' k e false s' weather') as [[[s3' t']|]|] eqn:R'; cbn [bind] in H'; try discriminate.
      injection H as <- <-. injection H' as <- <-.
      destruct (IH false s s' s3 s3' t t' Hs Hs' Fw Fw' Hst R R') as (I1 & I2); [intros; apply Hsm; right; assumption | intros; apply Hsm'; right; assumption|]. split; [exact I1 | constructor; [constructor | exact I2]].
Qed.
