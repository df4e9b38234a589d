(** Whole runs: balance over any number of steps, and existence of the run for limited winds. *)
From Coq Require Import QArith Lia Lqa List Bool Arith Setoid.
From Verif Require Import Base Num Utils_Model Utils_Spec Utils_Proofs Utils_Cases Bed_Model Bed_Spec Bed_Proofs Bed_Cases Solver_Model Solver_Spec Linear Solver_Proofs Solver_Iter Solver_Balance Solver_Cases Run_Model Run_Spec Run_Proofs.
Import ListNotations.
Open Scope Q_scope.

Lemma same_sym a b : same a b -> same b a.
Proof. induction 1; constructor; [symmetry|]; assumption. Qed.
Lemma same_trans a b c : same a b -> same b c -> same a c.
Proof. intros H. revert c. induction H; intros c H'; inversion H'; subst; constructor; [etransitivity; eassumption | apply IHForall2; assumption]. Qed.
Lemma same_refl a : same a a.
Proof. induction a; constructor; [reflexivity | assumption]. Qed.
Lemma layers_refl cs : same_layers cs cs.
Proof. induction cs; constructor; [apply same_refl | assumption]. Qed.
Lemma layers_trans a b c : same_layers a b -> same_layers b c -> same_layers a c.
Proof. intros H. revert c. induction H; intros d H'; inversion H'; subst; constructor; [eapply same_trans; eassumption | apply IHForall2; assumption]. Qed.
Lemma masses_in m m' l' : same (layer_masses m') (layer_masses m) -> In l' m' -> exists l, In l m /\ qsum l' == qsum l.
Proof.
  unfold layer_masses, same. revert m. induction m' as [|x m' IH]; intros [|y m] H Hin; inversion H; subst; cbn in Hin; [contradiction|]. destruct Hin as [-> | Hin].
  - exists y. split; [left; reflexivity | assumption].
  - destruct (IH m) as (l & H1 & H2); [assumption | assumption|]. exists l. split; [right; exact H1 | exact H2].
Qed.
Lemma moderate_same cs cs' os : same_layers cs cs' -> moderate cs os -> moderate cs' os.
Proof.
  intros H Hm j c' Hc'. assert (j < length cs)%nat by (rewrite (Forall2_len _ _ _ H); apply nth_error_Some; congruence).
  destruct (nth_error cs j) as [c|] eqn:E; [|apply nth_error_None in E; lia]. pose proof (Forall2_nth _ _ _ H j c c' E Hc') as S. cbv beta in S. destruct (Hm j c E) as (M1 & M2). split.
  - intros l' Hl'. destruct (masses_in _ _ _ S Hl') as (l & Hl & ->). apply M1, Hl.
  - destruct (Bed_Model.mass c) as [|a m], (Bed_Model.mass c') as [|a' m']; inversion S; subst; cbn [hd] in *; [exact M2|]. match goal with X : qsum a' == qsum a |- _ => rewrite X end. exact M2.
Qed.

Lemma nonneg_area k g w sp : fair_wind sp k g w -> 0 <= over_inside k g.
Proof.
  intros (H1 & _ & _ & _ & _ & _ & _ & H8 & _). rewrite over_inside_sumn. apply sumn_nonneg. intros r Hr. apply sumn_nonneg. intros j Hj. rewrite <- H8 by lia.
  apply Qlt_le_weak. apply (Hrect_pos k (speed w) H1); lia.
Qed.
(** The balance of a run. *)
Lemma whole_balance sp nf k e g : sound_setup nf k e -> forall weather t0 s s' trace, sound_state nf k s -> fair_weather sp nf k g weather ->
  run sp k e t0 s weather = Ok (Some (s', trace)) -> (forall os, In os trace -> smooth (sand s) os) ->
  sound_state nf k s' /\ same_layers (sand s) (sand s') /\ length trace = length weather /\
  0 <= content k e g s' - content k e g s - blown k weather trace <= inject_Z (Z.of_nat (windy weather)) * (inject_Z (Z.of_nat nf) * (max_error k * over_inside k g)).
Proof.
  intros He. induction weather as [|[ws|] rest IH]; intros t0 s s' trace Hs Hf H Hsm; cbn [run] in H.
  - injection H as <- <-. split; [exact Hs|]. split; [apply layers_refl|]. split; [reflexivity|]. unfold blown, windy. cbn [map2 qsum fold_right length filter]. change (inject_Z (Z.of_nat 0)) with 0. lra.
  - destruct (step sp k e t0 s ws) as [[[s1 os]|]|] eqn:E; cbn [bind] in H; try discriminate.
    destruct (run sp k e false s1 rest) as [[[s2 t]|]|] eqn:E1; cbn [bind] in H; try discriminate. injection H as <- <-.
    destruct (Hf ws (or_introl eq_refl)) as (Hl & Hw).
    assert (Hos : (forall o, In o os -> converged o = true) /\ moderate (sand s) os).
    { destruct (Hsm os (or_introl eq_refl)) as [-> | X]; [|exact X]. exfalso. destruct (step_inv _ _ _ _ _ _ _ _ E) as (w & _ & F & _). apply fractions_each in F. apply Forall2_len in F.
      rewrite reads_length, Hl in F. destruct He as (_ & _ & _ & _ & _ & _ & _ & _ & X & _). cbn in F. lia. }
    destruct Hos as (Hc & Hm). destruct (step_balance sp nf k e g He t0 s ws s1 os Hs Hl Hw E Hc Hm) as (B1 & B2 & B3 & B4).
    destruct (IH false s1 s2 t B1 ltac:(intros x Hx; apply Hf; right; exact Hx) E1) as (C1 & C2 & C3 & C4).
    { intros x Hx. destruct (Hsm x (or_intror Hx)) as [D | (D1 & D2)]; [left; exact D|]. right. split; [exact D1|]. apply (moderate_same _ _ _ B2 D2). }
    split; [exact C1|]. split; [eapply layers_trans; eassumption|]. split; [cbn [length]; congruence|].
    unfold blown, windy in *. cbn [map2 qsum fold_right filter length]. fold (qsum (map2 (fun x os => match x with Some ws => blown_step k ws os | None => 0 end) rest t)).
    rewrite Nat2Z.inj_succ, <- Z.add_1_r, inject_Z_plus. change (inject_Z 1) with 1. lra.
  - destruct (run sp k e false s rest) as [[[s2 t]|]|] eqn:E1; cbn [bind] in H; try discriminate. injection H as <- <-.
    destruct (IH false s s2 t Hs ltac:(intros x Hx; apply Hf; right; exact Hx) E1 ltac:(intros x Hx; apply Hsm; right; exact Hx)) as (C1 & C2 & C3 & C4).
    split; [exact C1|]. split; [exact C2|]. split; [cbn [length]; congruence|].
    unfold blown, windy in *. cbn [map2 qsum fold_right filter length]. fold (qsum (map2 (fun x os => match x with Some ws => blown_step k ws os | None => 0 end) rest t)). lra.
Qed.

(** * Existence *)
Lemma iterate_more sp k f d : forall n w o, iterate sp k f d w n = Some o -> converged o = true -> forall m, (n <= m)%nat -> iterate sp k f d w m = Some o.
Proof.
  induction n as [|n IH]; intros w o H Hc m Hm.
  - destruct m; cbn [iterate] in *; destruct (tidy k _) as [c|]; try discriminate; destruct (anyn _ _); try assumption; injection H as <-; discriminate.
  - destruct m as [|m]; [lia|]. cbn [iterate] in *. destruct (tidy k _) as [c|]; try discriminate. destruct (anyn _ _); [|assumption]. apply IH; try assumption. lia.
Qed.
(** From some number of iterations on, the same converged outcome. *)
Lemma fraction_exists sp k fd w : good_cfg k -> good sp k fd -> (forall j, (j < number_of_cells k)%nat -> 0 <= w j) ->
  exists n0 o, converged o = true /\ forall n, (n0 <= n)%nat -> solve_fraction sp (with_iterations k n) (fst fd) (snd fd) w = Ok (Some o).
Proof.
  intros (C1 & C2 & C3 & C4) (G1 & G2 & G3 & G4 & G5 & G6 & G7 & G8 & G9) Hw.
  destruct (converges sp k (fst fd) (snd fd) w C1 G1 G2 (onshore_gathers _ _ C1 G3) G5 ltac:(intros _; exact C3) G8 G6 C4 G7 Hw) as (n0 & Hn0).
  destruct (Hn0 (S n0) ltac:(lia)) as (o & E & Hc & _). exists (S n0), o. split; [exact Hc|]. intros n Hn.
  apply solve_fraction_inv in E. symmetry in E. change (max_iter (with_iterations k (S n0))) with (S n0) in E. rewrite iterate_any in E.
  rewrite solve_fraction_ok.
  - change (max_iter (with_iterations k n)) with n. rewrite iterate_any. f_equal. apply (iterate_more _ _ _ _ _ _ _ E Hc). lia.
  - apply (quiet_runs (with_iterations k n) (fst fd)). exact G5.
  - apply sensible_offsets. exact C1.
  - cbn. lia.
Qed.
Lemma fractions_exist sp k nf : good_cfg k -> forall fs i w, (i + length fs <= nf)%nat -> weights_ok nf k i w -> (forall fd, In fd fs -> good sp k fd) ->
  exists n0 r, (forall o, In o (fst r) -> converged o = true) /\ forall n, (n0 <= n)%nat -> fractions sp (with_iterations k n) i fs w = Ok (Some r).
Proof.
  intros Hk. induction fs as [|[f d] fs IH]; intros i w Hn Hw Hg.
  - exists 0%nat, ([], w). split; [intros o [] | reflexivity].
  - cbn [length] in Hn. pose proof (start_weight nf k i w ltac:(lia) Hw) as Hstart.
    assert (Hw0 : forall j, (j < number_of_cells k)%nat -> 0 <= memo (cells k) (fun c => nth i (renormalize_weights (w c) i) 0) j) by (intros j Hj; destruct (Hstart j Hj) as (R1 & R2); rewrite R1; apply R2).
    pose proof (Hg _ (or_introl eq_refl)) as G. destruct (fraction_exists sp k (f, d) _ Hk G Hw0) as (n1 & o & Hc & Hn1). cbn [fst snd] in Hn1.
    assert (S2 : forall j, (j < number_of_cells k)%nat -> 0 <= weight o j <= nth i (renormalize_weights (w j) i) 0).
    { intros j Hj. destruct (good_solution sp (with_iterations k n1) (f, d) _ o Hk G Hw0 (Hn1 n1 (Nat.le_refl n1)) Hc) as (_ & S2). specialize (S2 j Hj). rewrite (proj1 (Hstart j Hj)) in S2. exact S2. }
    destruct (IH (S i) (fun c => set_nth i (weight o c) (renormalize_weights (w c) i)) ltac:(lia)) as (n2 & (os & w2) & Hcs & Hn2).
    { apply weights_next; [lia | exact Hw | exact S2]. }
    { intros fd Hin. apply Hg. right. exact Hin. }
    exists (Nat.max n1 n2), (o :: os, w2). split.
    + cbn [fst] in *. intros x [<- | Hx]; [exact Hc | apply Hcs, Hx].
    + intros n Hmax. cbn [fractions]. change (cells (with_iterations k n)) with (cells k). rewrite Hn1 by lia. cbn [bind]. rewrite Hn2 by lia. reflexivity.
Qed.
Lemma step_exists sp nf k e g t0 s ws : sound_setup nf k e -> sound_state nf k s -> length ws = nf -> (forall w, In w ws -> fair_wind sp k g w) ->
  exists n0 s' os, (forall o, In o os -> converged o = true) /\ forall n, (n0 <= n)%nat -> step sp (with_iterations k n) e t0 s ws = Ok (Some (s', os)).
Proof.
  intros He Hs Hl Hw. pose proof (setup_cfg nf k e He) as Hk.
  assert (W : exists w, start_weights k t0 (bedcomp e) (grains e) (weights_now (bi e) s ws) = Ok w).
  { unfold start_weights. destruct He as (_ & -> & _). destruct t0; eauto. }
  destruct W as (w & W). pose proof (start_ok sp nf k e g He s ws t0 w Hs Hl Hw W) as Hw0. pose proof (reads_good sp nf k g s ws Hs Hl Hw) as Hg.
  destruct (fractions_exist sp k nf Hk (all_reads s ws) 0 w ltac:(rewrite reads_length; lia) Hw0 Hg) as (n0 & (os & w') & Hc & Hn).
  exists n0. eexists. exists os. split; [exact Hc|]. intros n Hle. unfold step, solve.
  change (start_weights (with_iterations k n) t0 (bedcomp e) (grains e) (weights_now (bi e) s ws)) with (start_weights k t0 (bedcomp e) (grains e) (weights_now (bi e) s ws)).
  rewrite W. cbn [bind]. rewrite (Hn n Hle). cbn [bind]. reflexivity.
Qed.

(** Limited winds: the concentrations stay below [M] and the deposits below the mass of a layer. *)
Lemma outcomes_limited sp nf k e g M t0 s ws s' os : sound_setup nf k e -> prescribed_ends k -> 0 <= M -> sound_state nf k s -> length ws = nf -> (forall w, In w ws -> fair_wind sp k g w) ->
  (forall w, In w ws -> limited_wind k M w) -> limited_air k M s -> step sp k e t0 s ws = Ok (Some (s', os)) -> (forall o, In o os -> converged o = true) ->
  length os = nf /\ forall i o, nth_error os i = Some o -> forall j, (j < number_of_cells k)%nat -> 0 <= ct o j <= M /\ - (M * dt k / T k) <= pickup o j <= nth i (top_layer s j) 0.
Proof.
  intros He Hp HM Hs Hl Hw HwM Ha H Hc. destruct (step_inv _ _ _ _ _ _ _ _ H) as (w & W & F & _ & _). pose proof (setup_cfg nf k e He) as Hk.
  pose proof (start_ok sp nf k e g He s ws t0 w Hs Hl Hw W) as Hw0. pose proof (reads_good sp nf k g s ws Hs Hl Hw) as Hg.
  pose proof (fractions_from sp k nf Hk (all_reads s ws) 0 w os (oldw s') ltac:(rewrite reads_length; lia) Hw0 Hg F Hc) as Hfrom.
  assert (Lo : length os = nf) by (rewrite (Forall2_len _ _ _ Hfrom), reads_length; exact Hl). split; [exact Lo|]. intros i o Hi j Hj.
  assert (Hiw : (i < length ws)%nat) by (rewrite Hl, <- Lo; apply nth_error_Some; congruence). destruct (nth_error ws i) as [wi|] eqn:E; [|apply nth_error_None in E; lia].
  assert (R : nth_error (all_reads s ws) i = Some (reads s ws i wi)) by (apply reads_nth; eauto).
  destruct (Forall2_nth _ _ _ Hfrom i o _ Hi R) as (w0 & P1 & P2). pose proof (Hg _ (nth_error_In _ _ R)) as G. pose proof (Hc o (nth_error_In _ _ Hi)) as Hco.
  destruct (HwM wi (nth_error_In _ _ E)) as ((u & v & U) & M1 & M2). pose proof Hk as (K1 & K2 & K3 & K4). pose proof G as (G1 & G2 & G3 & G4 & G5 & G6 & G7 & G8 & G9).
  assert (Bd : 0 <= ct o j <= M).
  { apply (solver_bounded sp k (speed wi) (snd (reads s ws i wi)) w0 M u v); try assumption.
    - intros _; exact K3.
    - intros x Hx; apply P1, Hx.
    - split; [exact HM|]. split; [|exact M2]. intros x Hx. split.
      + cbn [reads snd lCt]. apply Ha; [|exact Hx]. apply nth_In. destruct Hs as (-> & _). lia.
      + destruct (G8 x Hx) as (_ & _ & Cp & _). assert (Ecap : capacity (snd (reads s ws i wi)) x == wCu wi x) by (unfold capacity; rewrite (G9 x Hx); cbn [reads snd Cu]; ring).
        rewrite Ecap in Cp. rewrite Ecap. specialize (M1 x Hx). destruct (P1 x Hx) as (Q1 & Q2). pose proof (mul_nn (1 - w0 x) (wCu wi x) ltac:(lra) Cp). lra. }
  split; [exact Bd|]. destruct (pickup_within sp k _ _ _ _ P2 Hco j Hj) as (X1 & _ & _). split; [|exact X1].
  destruct (good_solution sp k _ w0 o Hk G (fun x Hx => proj1 (P1 x Hx)) P2 Hco) as (_ & S2). specialize (S2 j Hj). destruct (G8 j Hj) as (_ & _ & _ & Cn & Mn).
  apply solve_fraction_inv in P2. symmetry in P2. pose proof Hj as Hj'. rewrite <- cells_eq in Hj'. destruct (iterate_converged sp k _ _ _ _ _ P2 Hco j Hj') as (-> & _).
  pose proof K1 as (_ & _ & Hdt & HT & _). pose proof (mul_nn (weight o j) (Cu (snd (reads s ws i wi)) j) (proj1 S2) Cn) as Hwc.
  assert (Hq : 0 <= dt k / T k) by (apply Qlt_le_weak, Qlt_shift_div_l; lra).
  apply qmin_glb.
  - unfold demand. setoid_replace ((weight o j * Cu (snd (reads s ws i wi)) j - ct o j) / T k * dt k) with (dt k / T k * (weight o j * Cu (snd (reads s ws i wi)) j - ct o j)) by (field; lra).
    setoid_replace (M * dt k / T k) with (dt k / T k * M) by (field; lra). pose proof (mul_nn (dt k / T k) (weight o j * Cu (snd (reads s ws i wi)) j - ct o j + M) Hq ltac:(lra)). lra.
  - assert (0 <= M * dt k / T k); [|lra]. setoid_replace (M * dt k / T k) with (dt k / T k * M) by (field; lra). apply mul_nn; assumption.
Qed.
Lemma qsum_lower (l : list Q) b : (forall x, In x l -> b <= x) -> inject_Z (Z.of_nat (length l)) * b <= qsum l.
Proof.
  induction l as [|x l IH]; intros H. cbn [length qsum fold_right]. change (inject_Z (Z.of_nat 0)) with 0. lra.
  cbn [length qsum fold_right]. fold (qsum l). rewrite Nat2Z.inj_succ, <- Z.add_1_r, inject_Z_plus. change (inject_Z 1) with 1. specialize (IH ltac:(intros; apply H; right; assumption)). pose proof (H x (or_introl eq_refl)). lra.
Qed.
Lemma qsum_upper : forall (l m : list Q), length l = length m -> (forall i x, nth_error l i = Some x -> x <= nth i m 0) -> qsum l <= qsum m.
Proof.
  induction l as [|x l IH]; intros [|y m] H1 H; try discriminate.
  cbn [qsum fold_right]. fold (qsum l). fold (qsum m). pose proof (H 0%nat x eq_refl). cbn [nth] in *. specialize (IH m ltac:(cbn in H1; lia) ltac:(intros i z Hz; exact (H (S i) z Hz))). lra.
Qed.
Lemma limited_moderate nf k e M L s os : sound_setup nf k e -> sound_state nf k s -> equal_layers L s -> inject_Z (Z.of_nat nf) * (M * dt k / T k) < L -> length os = nf ->
  (forall i o, nth_error os i = Some o -> forall j, (j < number_of_cells k)%nat -> 0 <= ct o j <= M /\ - (M * dt k / T k) <= pickup o j <= nth i (top_layer s j) 0) -> moderate (sand s) os.
Proof.
  intros He Hs HL Hb Lo H j c Hj. pose proof Hs as (_ & _ & S3 & S4). assert (Hjn : (j < number_of_cells k)%nat) by (rewrite <- S3; apply nth_error_Some; congruence).
  assert (B1 : net_deposit (picked os j) < L).
  { unfold net_deposit. pose proof (qsum_lower (picked os j) (- (M * dt k / T k))) as X. unfold picked in *. rewrite map_length, Lo in X.
    assert (Y : forall x, In x (map (fun o => pickup o j) os) -> - (M * dt k / T k) <= x). { intros x Hx. apply in_map_iff in Hx. destruct Hx as (o & <- & Ho). apply In_nth_error in Ho. destruct Ho as (i & Hi). apply (H i o Hi j Hjn). }
    specialize (X Y). lra. }
  assert (Tp : qsum (top_layer s j) == L /\ length (top_layer s j) = nf).
  { split; [|apply (top_sound nf k s j Hs Hjn)]. unfold top_layer. rewrite Hj. destruct (S4 c (nth_error_In _ _ Hj)) as (N & _). apply (HL c (nth_error_In _ _ Hj)). destruct (Bed_Model.mass c); [contradiction | left; reflexivity]. }
  destruct Tp as (T1 & T2).
  assert (B2 : qsum (picked os j) <= L).
  { rewrite <- T1. apply qsum_upper. unfold picked. rewrite map_length. congruence. intros i x Hx. unfold picked in Hx. rewrite nth_error_map in Hx. destruct (nth_error os i) as [o|] eqn:E; [|discriminate]. injection Hx as <-. apply (H i o E j Hjn). }
  split.
  - intros l Hl. rewrite (HL c (nth_error_In _ _ Hj) l Hl). unfold qabs, net_deposit in *. destruct (Qle_bool_spec 0 (- qsum (picked os j))); lra.
  - unfold top_layer in T1. rewrite Hj in T1. rewrite T1. exact B1.
Qed.
Lemma equal_kept L s s' : same_layers (sand s) (sand s') -> equal_layers L s -> equal_layers L s'.
Proof.
  intros H HL c' Hc' l' Hl'. apply In_nth_error in Hc'. destruct Hc' as (j & Hj). assert (j < length (sand s))%nat by (rewrite (Forall2_len _ _ _ H); apply nth_error_Some; congruence).
  destruct (nth_error (sand s) j) as [c|] eqn:E; [|apply nth_error_None in E; lia]. pose proof (Forall2_nth _ _ _ H j c c' E Hj) as S. cbv beta in S.
  destruct (masses_in _ _ _ S Hl') as (l & Hl & ->). apply (HL c (nth_error_In _ _ E) l Hl).
Qed.
Lemma whole_exists sp nf k e g M L : sound_setup nf k e -> prescribed_ends k -> 0 <= M -> inject_Z (Z.of_nat nf) * (M * dt k / T k) < L ->
  forall weather t0 s, sound_state nf k s -> equal_layers L s -> limited_air k M s -> fair_weather sp nf k g weather -> limited_weather k M weather ->
  exists n0 s' trace, (forall n, (n0 <= n)%nat -> run sp (with_iterations k n) e t0 s weather = Ok (Some (s', trace))) /\
    (forall os, In os trace -> smooth (sand s) os) /\ sound_state nf k s' /\ equal_layers L s' /\ limited_air k M s'.
Proof.
  intros He Hp HM Hb. induction weather as [|[ws|] rest IH]; intros t0 s Hs HL Ha Hf Hlim.
  - exists 0%nat, s, []. split; [intros; reflexivity|]. split; [intros os []|]. auto.
  - destruct (Hf ws (or_introl eq_refl)) as (Hl & Hw). destruct (step_exists sp nf k e g t0 s ws He Hs Hl Hw) as (n1 & s1 & os & Hc & Hn1).
    pose proof (Hn1 n1 (Nat.le_refl n1)) as E. change (sound_setup nf (with_iterations k n1) e) in He. change (sound_state nf (with_iterations k n1) s) in Hs.
    pose proof (outcomes_limited sp nf (with_iterations k n1) e g M t0 s ws s1 os He Hp HM Hs Hl Hw (Hlim ws (or_introl eq_refl)) Ha E Hc) as (Lo & Hout).
    pose proof (limited_moderate nf (with_iterations k n1) e M L s os He Hs HL Hb Lo Hout) as Hm.
    destruct (step_balance sp nf (with_iterations k n1) e g He t0 s ws s1 os Hs Hl Hw E Hc Hm) as (B1 & B2 & _).
    assert (Ha1 : limited_air k M s1).
    { intros a Hin x Hx. destruct (step_inv _ _ _ _ _ _ _ _ E) as (w & _ & _ & A & _). rewrite A in Hin. apply in_map_iff in Hin. destruct Hin as (o & <- & Ho). apply In_nth_error in Ho. destruct Ho as (i & Hi). apply (Hout i o Hi x Hx). }
    destruct (IH false s1 B1 (equal_kept L s s1 B2 HL) Ha1 ltac:(intros x Hx; apply Hf; right; exact Hx) ltac:(intros x Hx; apply Hlim; right; exact Hx)) as (n2 & s2 & t & Hn2 & Hsm & R).
    exists (Nat.max n1 n2), s2, (os :: t). split.
    + intros n Hn. cbn [run]. rewrite Hn1 by lia. cbn [bind]. rewrite Hn2 by lia. reflexivity.
    + split; [|exact R]. intros x [<- | Hx]. right; split; assumption. destruct (Hsm x Hx) as [D | (D1 & D2)]; [left; exact D|]. right. split; [exact D1|].
      apply (moderate_same (sand s1)); [|exact D2]. clear - B2. unfold same_layers in *. induction B2; constructor; [apply same_sym; assumption | assumption].
  - destruct (IH false s Hs HL Ha ltac:(intros x Hx; apply Hf; right; exact Hx) ltac:(intros x Hx; apply Hlim; right; exact Hx)) as (n2 & s2 & t & Hn2 & Hsm & R).
    exists n2, s2, ([] :: t). split.
    + intros n Hn. cbn [run]. rewrite Hn2 by lia. reflexivity.
    + split; [|exact R]. intros x [<- | Hx]. left; reflexivity. apply Hsm, Hx.
Qed.
