(** Proofs of the limits to the change of the bed. *)
From Coq Require Import QArith Lia Lqa List Bool Arith Setoid.
From Verif Require Import Base Num Utils_Model Utils_Spec Utils_Proofs Utils_Cases Bed_Spec Bed_Model Bed_Proofs Solver_Model Solver_Spec Linear Solver_Proofs Solver_Iter Solver_Cases Solver_Balance Run_Model Run_Spec Run_Proofs Run_Whole
  Day_Model Day_Spec Day_Proofs Limit_Spec.
Import ListNotations.
Open Scope Q_scope.

Lemma sum_le {A} (f g : A -> Q) : forall l, (forall x, In x l -> f x <= g x) -> qsum (map f l) <= qsum (map g l).
Proof.
  induction l as [|a l IH]; intros H; cbn [map qsum fold_right]. apply Qle_refl. fold (qsum (map f l)) (qsum (map g l)).
  pose proof (H a (or_introl eq_refl)). specialize (IH (fun x Hx => H x (or_intror Hx))). lra.
Qed.
Lemma sum_times {A} (f : A -> Q) q : forall l, qsum (map (fun x => f x * q) l) == qsum (map f l) * q.
Proof. induction l as [|a l IH]; cbn [map qsum fold_right]. ring. fold (qsum (map f l)) (qsum (map (fun x => f x * q) l)). rewrite IH. ring. Qed.
Lemma sum_opp {A} (f : A -> Q) : forall l, qsum (map (fun x => - f x) l) == - qsum (map f l).
Proof. induction l as [|a l IH]; cbn [map qsum fold_right]. reflexivity. fold (qsum (map f l)) (qsum (map (fun x => - f x) l)). rewrite IH. ring. Qed.
Lemma sum_le2 {A B} (f : A -> Q) (h : B -> Q) : forall l m, length l = length m -> (forall i x y, nth_error l i = Some x -> nth_error m i = Some y -> f x <= h y) -> qsum (map f l) <= qsum (map h m).
Proof.
  induction l as [|a l IH]; intros [|b m] L H; try discriminate L; cbn [map qsum fold_right]. apply Qle_refl. fold (qsum (map f l)) (qsum (map h m)).
  pose proof (H 0%nat a b eq_refl eq_refl). specialize (IH m ltac:(cbn in L; lia) (fun i x y Hx Hy => H (S i) x y Hx Hy)). lra.
Qed.

(** Where nothing can be carried the saturation is zero. *)
Lemma saturation_zero s ws j : (forall w, In w ws -> wCu w j == 0) -> saturation s ws j == 0.
Proof.
  unfold saturation. generalize (air s) as l. induction ws as [|w ws IH]; intros l H; destruct l as [|a l]; cbn [map2 qsum fold_right]; try reflexivity.
  fold (qsum (map2 (fun a w => if Qltb 0 (wCu w j) then a j / wCu w j else 0) l ws)). rewrite IH by (intros y Hy; apply H; right; exact Hy).
  pose proof (H w (or_introl eq_refl)) as E. destruct (Qltb_spec 0 (wCu w j)); [exfalso; lra | ring].
Qed.

Section Step.
Variables (sp : (nat -> nat -> Q) -> (nat -> Q) -> nat -> Q) (nf : nat) (k : cfg) (e : setup).
Hypothesis He : sound_setup nf k e.

Definition posed (fd : flow * input) : Prop := forall w, Solver_Spec.all_nonneg (number_of_cells k) w -> well_posed sp k (fst fd) (snd fd) w.
Lemma reads_posed s ws : sound_state nf k s -> plain_winds sp nf k ws -> forall fd, In fd (all_reads s ws) -> posed fd.
Proof.
  intros Hs (Hl & Hw & Hz) fd Hfd w0 Hw0. apply In_nth_error in Hfd. destruct Hfd as (i & Hi). apply reads_nth in Hi. destruct Hi as (w & Hi & ->).
  destruct (Hw w (nth_error_In _ _ Hi)) as (W1 & W2 & W3 & W4 & W5 & W6 & W7). assert (Hn : (i < nf)%nat) by (rewrite <- Hl; apply nth_error_Some; congruence).
  destruct (setup_cfg nf k e He) as (K1 & K2 & K3 & K4). unfold well_posed, reads. cbn [fst snd]. repeat (split; [assumption|]). split; [intros _; exact K3|]. split; [|repeat (split; [assumption|]); exact Hw0].
  intros j Hj. destruct (W7 j Hj) as (V1 & V2 & V3). unfold capacity. cbn [Cu Cuf Cu0 mass lCt sat]. split; [|split; [|split; [|split]]]; try assumption.
  - destruct Hs as (L & A & _). apply A; [|exact Hj]. apply nth_In. rewrite L. exact Hn.
  - destruct (Hz j Hj) as [E | E].
    + rewrite (E w (nth_error_In _ _ Hi)). assert (X : wCu w j * (1 - saturation s ws j) + wCu w j * saturation s ws j == wCu w j) by ring. rewrite X. exact V1.
    + rewrite (saturation_zero s ws j E). lra.
  - apply nth_nonneg, (top_sound nf k s j Hs Hj).
Qed.
Lemma start_fine s ws t0 w : sound_state nf k s -> plain_winds sp nf k ws -> start_weights k t0 (bedcomp e) (grains e) (weights_now (bi e) s ws) = Ok w -> weights_ok nf k 0 w.
Proof.
  intros Hs (Hl & Hw & _) H. pose proof He as (E1 & E2 & E3 & E4 & E5 & E6 & E7 & E8 & E9 & _).
  assert (P : weights_ok nf k 0 (weights_now (bi e) s ws)).
  { intros j Hj. unfold weights_now. destruct (top_sound nf k s j Hs Hj) as (T1 & T2 & T3). destruct Hs as (L & A & _).
    assert (D : distribution (compute_weights (bi e) (map (fun a => a j) (air s)) (map (fun w => wCu w j) ws) (top_layer s j))).
    { apply weights_distribution; rewrite ?map_length; try congruence; try assumption.
      - intros x Hx. apply in_map_iff in Hx. destruct Hx as (a & <- & Ha). apply A; assumption.
      - intros x Hx. apply in_map_iff in Hx. destruct Hx as (a & <- & Ha). apply (Hw a Ha). exact Hj. }
    split; [|split; [exact (proj1 D) | cbn; lra]]. unfold compute_weights. rewrite normalize_length. unfold w_air, w_bed, normalize_ref.
    rewrite map2_length; rewrite map2_length; rewrite ?normalize_length, ?map_length; congruence. }
  unfold start_weights in H. rewrite E2 in H. destruct t0; [destruct (bedcomp e)|]; injection H as <-; try exact P.
  intros j Hj. split; [exact E7|]. split; [exact E8 | cbn; lra].
Qed.
Lemma posed_solution fd w o : posed fd -> (forall j, (j < number_of_cells k)%nat -> 0 <= w j) -> solve_fraction sp k (fst fd) (snd fd) w = Ok (Some o) -> converged o = true ->
  Solver_Spec.all_nonneg (number_of_cells k) (ct o) /\ (forall i, (i < number_of_cells k)%nat -> 0 <= weight o i <= w i).
Proof.
  intros Hp Hw Ho Hc. destruct (Hp w Hw) as (G1 & G2 & G3 & G4 & G5 & G6 & G7 & G8 & G9 & G10 & G11).
  destruct (solution_exact sp k (fst fd) (snd fd) w G1 G2 G3 G4 G5 G6 G7 G8 G9 G10 Hw o Ho Hc) as (S1 & S2 & _). auto.
Qed.
Lemma fractions_posed : forall fs i w os w', (i + length fs <= nf)%nat -> weights_ok nf k i w -> (forall fd, In fd fs -> posed fd) ->
  fractions sp k i fs w = Ok (Some (os, w')) -> (forall o, In o os -> converged o = true) -> Forall2 (comes_from sp k) os fs.
Proof.
  induction fs as [|[f d] fs IH]; intros i w os w' Hn Hw Hg H Hc; cbn [fractions] in H. injection H as <- _. constructor.
  cbn [length] in Hn. pose proof (start_weight nf k i w ltac:(lia) Hw) as Hstart.
  destruct (solve_fraction sp k f d _) as [[o|]|] eqn:E; cbn [bind] in H; try discriminate.
  destruct (fractions sp k (S i) fs _) as [[[os1 w1]|]|] eqn:E1; cbn [bind] in H; try discriminate. injection H as <- <-.
  assert (Hw0 : forall j, (j < number_of_cells k)%nat -> 0 <= memo (cells k) (fun c => nth i (renormalize_weights (w c) i) 0) j <= 1) by (intros j Hj; destruct (Hstart j Hj) as (R1 & R2); rewrite R1; exact R2).
  constructor.
  - eexists. split; [exact Hw0 | exact E].
  - apply (IH (S i) _ os1 w1) in E1; [exact E1 | lia | | intros; apply Hg; right; assumption | intros; apply Hc; right; assumption].
    apply weights_next; [lia | exact Hw|]. intros j Hj.
    destruct (posed_solution (f, d) _ o (Hg _ (or_introl eq_refl)) (fun j Hj => proj1 (Hw0 j Hj)) E (Hc o (or_introl eq_refl))) as (_ & S2).
    specialize (S2 j Hj). rewrite (proj1 (Hstart j Hj)) in S2. exact S2.
Qed.

(** One step at every place. *)
Lemma step_limits t0 s ws s' os : sound_state nf k s -> plain_winds sp nf k ws -> step sp k e t0 s ws = Ok (Some (s', os)) ->
  (forall o, In o os -> converged o = true) -> moderate (sand s) os ->
  sound_state nf k s' /\ same_layers (sand s) (sand s') /\ length os = nf /\
  forall j, (j < number_of_cells k)%nat -> - (can_carry ws j * (dt k / T k)) <= sediment e (level s' j - level s j) <= does_carry os j * (dt k / T k) /\ sediment e (level s' j - level s j) == net_deposit (picked os j).
Proof.
  intros Hs Hpl H Hc Hm. pose proof Hpl as (Hl & _). destruct (step_inv _ _ _ _ _ _ _ _ H) as (w & W & F & Ha & Hsd). pose proof (setup_cfg nf k e He) as Hk.
  pose proof (start_fine s ws t0 w Hs Hpl W) as Hw0. pose proof (reads_posed s ws Hs Hpl) as Hg.
  pose proof (fractions_posed (all_reads s ws) 0 w os (oldw s') ltac:(rewrite reads_length; lia) Hw0 Hg F Hc) as Hfrom.
  assert (Lo : length os = nf) by (rewrite (Forall2_len _ _ _ Hfrom), reads_length; exact Hl).
  pose proof Hk as ((_ & _ & Hdt & HT & _) & _). assert (Hq : 0 < dt k / T k) by (apply Qlt_shift_div_l; lra).
  assert (Each : forall i o, nth_error os i = Some o -> Solver_Spec.all_nonneg (number_of_cells k) (ct o) /\ exists wi, nth_error ws i = Some wi /\ forall j, (j < number_of_cells k)%nat -> pickup o j <= nth i (top_layer s j) 0 /\
    pickup o j <= wCu wi j * (dt k / T k) /\ - (ct o j * (dt k / T k)) <= pickup o j).
  { intros i o Hi. assert (Hiw : (i < length ws)%nat) by (rewrite Hl, <- Lo; apply nth_error_Some; congruence). destruct (nth_error ws i) as [wi|] eqn:E; [|apply nth_error_None in E; lia].
    assert (R : nth_error (all_reads s ws) i = Some (reads s ws i wi)) by (apply reads_nth; eauto).
    destruct (Forall2_nth _ _ _ Hfrom i o _ Hi R) as (w0 & P1 & P2). pose proof (Hg _ (nth_error_In _ _ R)) as G. pose proof (Hc o (nth_error_In _ _ Hi)) as Hco.
    destruct (posed_solution _ w0 o G (fun x Hx => proj1 (P1 x Hx)) P2 Hco) as (S1 & S2). split; [exact S1|].
    exists wi. split; [reflexivity|]. intros j Hj. destruct (pickup_within sp k _ _ _ _ P2 Hco j Hj) as (X1 & _ & _). split; [exact X1|].
    specialize (S1 j Hj). specialize (S2 j Hj). specialize (G w0 (fun x Hx => proj1 (P1 x Hx))). specialize (P1 j Hj).
    destruct G as (_ & _ & _ & _ & _ & _ & G7 & _). destruct (G7 j Hj) as (_ & _ & _ & Cn & Mn).
    apply solve_fraction_inv in P2. symmetry in P2. pose proof Hj as Hj'. rewrite <- cells_eq in Hj'. destruct (iterate_converged sp k _ _ _ _ _ P2 Hco j Hj') as (-> & _).
    change (Cu (snd (reads s ws i wi)) j) with (wCu wi j) in Cn. set (m := mass (snd (reads s ws i wi)) j) in *.
    assert (Ed : demand k (snd (reads s ws i wi)) (weight o) (ct o) j == (weight o j * wCu wi j - ct o j) * (dt k / T k)) by (unfold demand; cbn [reads snd Cu]; field; lra).
    pose proof (mul_nn (weight o j) (wCu wi j) (proj1 S2) Cn) as N1. pose proof (mul_nn (1 - weight o j) (wCu wi j) ltac:(lra) Cn) as N2.
    pose proof (mul_nn (ct o j) (dt k / T k) S1 ltac:(lra)) as N3. split.
    - apply Qle_trans with (demand k (snd (reads s ws i wi)) (weight o) (ct o) j); [apply qmin_l|]. rewrite Ed.
      pose proof (mul_nn (wCu wi j - weight o j * wCu wi j + ct o j) (dt k / T k) ltac:(lra) ltac:(lra)). lra.
    - apply qmin_glb; [|lra]. rewrite Ed. pose proof (mul_nn (weight o j * wCu wi j) (dt k / T k) N1 ltac:(lra)). lra. }
  assert (Cells : forall j c, nth_error (sand s) j = Some c -> exists c', nth_error (sand s') j = Some c' /\ sound_layers nf (Bed_Model.mass c') /\
    same (layer_masses (Bed_Model.mass c')) (layer_masses (Bed_Model.mass c)) /\ zb c' == zb c + net_deposit (picked os j) / (rhog (bedp e) * (1 - porosity (bedp e)))).
  { intros j c Hj. rewrite Hsd. destruct (Hm j c Hj) as (M1 & M2). pose proof Hs as (S1 & S2 & S3 & S4). apply (settle_nth nf k e He); try assumption.
    intros i o Hi. destruct (Each i o Hi) as (_ & wi & _ & X). apply (X j). rewrite <- S3. apply nth_error_Some. congruence. }
  assert (Ls : length (sand s') = length (sand s)) by (rewrite Hsd; apply settle_length).
  split; [|split; [|split; [exact Lo|]]].
  - split; [rewrite Ha, map_length; exact Lo|]. split; [|split].
    + intros a Hin. rewrite Ha in Hin. apply in_map_iff in Hin. destruct Hin as (o & <- & Hin). apply In_nth_error in Hin. destruct Hin as (i & Hi). apply (Each i o Hi).
    + rewrite Ls. apply Hs.
    + intros c' Hin. apply In_nth_error in Hin. destruct Hin as (j & Hj). assert (j < length (sand s))%nat by (rewrite <- Ls; apply nth_error_Some; congruence).
      destruct (nth_error (sand s) j) as [c|] eqn:E; [|apply nth_error_None in E; lia]. destruct (Cells j c E) as (c'' & X & Y & _). congruence.
  - unfold same_layers. clear - Cells Ls. revert Cells Ls. generalize (sand s) as cs, (sand s') as cs', (picked os) as pk. induction cs as [|c cs IH]; intros [|c' cs'] pk Cells Ls; try discriminate; constructor.
    + destruct (Cells 0%nat c eq_refl) as (c'' & X & _ & Y & _). injection X as <-. exact Y.
    + apply (IH cs' (fun j => pk (S j))); [|cbn in Ls; lia]. intros j x Hj. exact (Cells (S j) x Hj).
  - intros j Hj. destruct Hs as (S1 & S2 & S3 & S4). destruct (nth_error (sand s) j) as [c|] eqn:Ec; [|apply nth_error_None in Ec; lia].
    destruct (Cells j c Ec) as (c' & C1 & _ & _ & C4). pose proof He as (_ & _ & _ & _ & _ & _ & _ & _ & _ & _ & _ & HD).
    assert (Eg : sediment e (level s' j - level s j) == - qsum (picked os j)).
    { unfold sediment, level. rewrite C1, Ec, C4. unfold net_deposit. set (D := rhog (bedp e) * (1 - porosity (bedp e))) in *. field. lra. }
    split; [|unfold net_deposit in *; lra]. rewrite Eg. split.
    + assert (qsum (picked os j) <= can_carry ws j * (dt k / T k)); [|lra]. unfold can_carry. rewrite <- sum_times. unfold picked. apply sum_le2; [congruence|].
      intros i o wi Hi Hwi. destruct (Each i o Hi) as (_ & wi' & X & Y). rewrite Hwi in X. injection X as <-. apply (Y j Hj).
    + assert (qsum (map (fun o => - (ct o j * (dt k / T k))) os) <= qsum (picked os j)).
      { unfold picked. apply sum_le. intros o Ho. apply In_nth_error in Ho. destruct Ho as (i & Hi). destruct (Each i o Hi) as (_ & wi & _ & Y). apply (Y j Hj). }
      unfold does_carry. rewrite <- sum_times. rewrite sum_opp in H0. lra.
Qed.

Lemma level_height s j : level s j = height (sand s) j.
Proof. reflexivity. Qed.
Lemma reshaped_level f s j : (j < length (sand s))%nat -> level (with_sand s (reshaped f (sand s))) j = f (height (sand s)) j.
Proof. intros Hj. unfold level. cbn [with_sand sand]. rewrite reshaped_nth. destruct (nth_error (sand s) j) as [c|] eqn:E; [reflexivity|]. apply nth_error_None in E. lia. Qed.
Lemma sediment_plus a b : sediment e (a + b) == sediment e a + sediment e b.
Proof. unfold sediment. ring. Qed.

(** One step with waves and feedback. *)
Lemma whole_step_limits m L t0 s d s' y : sound_state nf k s -> equal_layers L s -> fits m s -> (forall ws, blow d = Some ws -> plain_winds sp nf k ws) ->
  whole_step sp k e m t0 s d = Ok (Some (s', y)) -> gentle k L y -> sound_state nf k s' /\ equal_layers L s' /\ fits m s' /\ (match blow d with Some ws => winds y = ws | None => winds y = [] end) /\
  forall j, (j < number_of_cells k)%nat -> (exists z, level s' j - level s j == (z j - level s j) + lifted y j /\ lifted y j == reshape d z j - z j) /\
    - (can_carry (winds y) j * (dt k / T k)) <= sediment e (level s' j - level s j - lifted y j) <= does_carry (results y) j * (dt k / T k) /\ (0 <= L -> - L <= sediment e (level s' j - level s j - lifted y j)).
Proof.
  intros Hs HL Hf Hd H Hg. assert (Hnf : length (grains e) = nf) by (destruct He as (_ & _ & _ & _ & _ & _ & E & _); exact E). unfold whole_step in H. rewrite Hnf in H.
  destruct (stirred_sound nf k m (heights d) s L Hs HL Hf) as (M1 & M2 & M3 & _). set (s1 := with_sand s (stirred nf m (heights d) (sand s))) in *.
  assert (Hlev : forall j, level s1 j = level s j) by (intros j; rewrite !level_height; apply stirred_height).
  destruct (blow d) as [ws|] eqn:Eb.
  - pose proof (Hd ws eq_refl) as Hp. destruct (step sp k e t0 s1 ws) as [[[s2 os]|]|] eqn:E; cbn [bind] in H; try discriminate H. injection H as <- <-. unfold gentle in Hg. cbn [winds results lifted] in *.
    assert (Hos : ((forall o, In o os -> converged o = true) /\ moderate (sand s1) os) /\ forall j, (j < number_of_cells k)%nat -> qabs (net_deposit (picked os j)) <= L).
    { destruct Hg as [-> | (G1 & G2)]. exfalso. destruct (step_inv _ _ _ _ _ _ _ _ E) as (w & _ & F & _). apply fractions_each in F. apply Forall2_len in F. destruct Hp as (Hl & _). rewrite reads_length, Hl in F. destruct He as (_ & _ & _ & _ & _ & _ & _ & _ & X & _). cbn in F. lia.
      split; [|intros j Hj; apply (G2 j Hj)]. split. exact G1. apply (gentle_moderate nf k L); assumption. }
    destruct Hos as ((Hcv & Hm) & HbL). destruct (step_limits t0 s1 ws s2 os M1 Hp E Hcv Hm) as (B1 & B2 & B3 & B4).
    pose proof (equal_kept L s1 s2 B2 M2) as HL2. pose proof (fits_kept m s1 s2 B2 M3) as Hf2. destruct (reshaped_sound nf k m (reshape d) s2 L B1 HL2 Hf2) as (R1 & R2 & R3).
    split. exact R1. split. exact R2. split. exact R3. split. reflexivity. intros j Hj. assert (Hj2 : (j < length (sand s2))%nat) by (destruct B1 as (_ & _ & -> & _); exact Hj). rewrite (reshaped_level _ _ _ Hj2).
    split. exists (height (sand s2)). split; [|reflexivity]. rewrite (level_height s). ring. specialize (B4 j Hj). rewrite Hlev in B4.
    assert (X : sediment e (reshape d (height (sand s2)) j - level s j - (reshape d (height (sand s2)) j - height (sand s2) j)) == sediment e (level s2 j - level s j)) by (unfold sediment; rewrite (level_height s2); ring). rewrite X. destruct B4 as (B4 & B5). split; [exact B4|]. intros _. rewrite B5. pose proof (HbL j Hj) as Q1. pose proof (proj2 (qabs_ge (net_deposit (picked os j)))) as Q2. clear - Q1 Q2. generalize dependent (qabs (net_deposit (picked os j))). generalize (net_deposit (picked os j)). intros. lra.
  - injection H as <- <-. cbn [winds results lifted] in *. destruct (reshaped_sound nf k m (reshape d) s1 L M1 M2 M3) as (R1 & R2 & R3). split. exact R1. split. exact R2. split. exact R3. split. reflexivity.
    change (stirred nf m (heights d) (sand s)) with (sand s1). intros j Hj. assert (Hj1 : (j < length (sand s1))%nat) by (destruct M1 as (_ & _ & -> & _); exact Hj). rewrite (reshaped_level _ _ _ Hj1).
    split. exists (height (sand s1)). split; [|reflexivity]. rewrite (level_height s). ring. unfold can_carry, does_carry. cbn [map qsum fold_right].
    assert (X : sediment e (reshape d (height (sand s1)) j - level s j - (reshape d (height (sand s1)) j - height (sand s1) j)) == 0) by (rewrite <- (level_height s1), Hlev; unfold sediment; ring). rewrite X. split; intros; lra.
Qed.

(** A whole run. *)
Lemma days_limits m L climate : plain_climate sp nf k climate -> forall n t0 past s s' t, sound_state nf k s -> equal_layers L s -> fits m s ->
  days sp k e m climate n t0 past s = Ok (Some (s', t)) -> (forall y, In y t -> gentle k L y) -> forall j, (j < number_of_cells k)%nat ->
  - (can_carry_in t j * (dt k / T k)) <= sediment e (level s' j - level s j - lifted_in t j) <= does_carry_in t j * (dt k / T k).
Proof.
  intros Hcl. induction n as [|n IH]; intros t0 past s s' t Hs HL Hf H Hg j Hj; cbn [days] in H.
  - injection H as <- <-. unfold can_carry_in, does_carry_in, lifted_in, sediment. cbn [map qsum fold_right]. lra.
  - destruct (whole_step sp k e m t0 s (climate (s :: past))) as [[[s1 y]|]|] eqn:E; cbn [bind] in H; try discriminate H.
    destruct (days sp k e m climate n false (s :: past) s1) as [[[s2 t']|]|] eqn:E1; cbn [bind] in H; try discriminate H. injection H as <- <-.
    destruct (whole_step_limits m L t0 s _ s1 y Hs HL Hf (Hcl (s :: past)) E (Hg y (or_introl eq_refl))) as (B1 & B2 & B3 & _ & B4). destruct (B4 j Hj) as (_ & B5 & _).
    pose proof (IH false (s :: past) s1 s2 t' B1 B2 B3 E1 ltac:(intros z Hz; apply Hg; right; exact Hz) j Hj) as C.
    unfold can_carry_in, does_carry_in, lifted_in in *. cbn [map qsum fold_right]. fold (qsum (map (fun d => can_carry (winds d) j) t')) (qsum (map (fun d => does_carry (results d) j) t')) (qsum (map (fun d => lifted d j) t')).
    set (a := qsum (map (fun d => can_carry (winds d) j) t')) in *. set (b := qsum (map (fun d => does_carry (results d) j) t')) in *. set (l := qsum (map (fun d => lifted d j) t')) in *.
    assert (X : sediment e (level s2 j - level s j - (lifted y j + l)) == sediment e (level s1 j - level s j - lifted y j) + sediment e (level s2 j - level s1 j - l)) by (unfold sediment; ring). rewrite X. lra.
Qed.
Lemma sediment_le a b : sediment e a <= sediment e b -> a <= b.
Proof.
  unfold sediment. intros H. pose proof He as (_ & _ & _ & _ & _ & _ & _ & _ & _ & _ & _ & HD). destruct (Qlt_le_dec b a) as [X|X]; [|exact X].
  pose proof (mul_pos (rhog (bedp e) * (1 - porosity (bedp e))) (a - b) HD ltac:(lra)). lra.
Qed.
(** The wind digs no deeper than one step below the level at which it is stopped. *)
Lemma days_floor m L climate z h j : plain_climate sp nf k climate -> (j < number_of_cells k)%nat -> spared_below j z climate -> never_lowered j climate -> erodes_at_most k e j h climate \/ 0 <= L <= sediment e h ->
  0 <= h -> forall n t0 past s s' t, sound_state nf k s -> equal_layers L s -> fits m s ->
  days sp k e m climate n t0 past s = Ok (Some (s', t)) -> (forall y, In y t -> gentle k L y) -> qmin (level s j) (z - h) <= level s' j.
Proof.
  intros Hcl Hj Hsp Hnl Her Hh. induction n as [|n IH]; intros t0 past s s' t Hs HL Hf H Hg; cbn [days] in H.
  - injection H as <- <-. apply qmin_l.
  - destruct (whole_step sp k e m t0 s (climate (s :: past))) as [[[s1 y]|]|] eqn:E; cbn [bind] in H; try discriminate H.
    destruct (days sp k e m climate n false (s :: past) s1) as [[[s2 t']|]|] eqn:E1; cbn [bind] in H; try discriminate H. injection H as <- <-.
    destruct (whole_step_limits m L t0 s _ s1 y Hs HL Hf (Hcl (s :: past)) E (Hg y (or_introl eq_refl))) as (B1 & B2 & B3 & Bw & B4). destruct (B4 j Hj) as ((zz & B5 & B6) & (B7 & _) & B8).
    pose proof (IH false (s :: past) s1 s2 t' B1 B2 B3 E1 ltac:(intros x Hx; apply Hg; right; exact Hx)) as C.
    assert (N : 0 <= lifted y j) by (rewrite B6; pose proof (Hnl (s :: past) zz); lra).
    assert (D : qmin (level s j) (z - h) <= level s1 j).
    { destruct (Qlt_le_dec z (level s j)) as [A|A].
      - apply Qle_trans with (z - h); [apply qmin_r|]. assert (level s j - h <= level s1 j); [|lra]. assert (X : - h <= level s1 j - level s j - lifted y j); [|lra]. apply sediment_le.
        assert (Y : sediment e (- h) == - sediment e h) by (unfold sediment; ring). rewrite Y. destruct Her as [Her | (HL0 & Her)]; [|specialize (B8 HL0); lra].
        apply Qle_trans with (- (can_carry (winds y) j * (dt k / T k))); [|exact B7]. assert (can_carry (winds y) j * (dt k / T k) <= sediment e h); [|lra].
        destruct (blow (climate (s :: past))) as [ws|] eqn:Eb. rewrite Bw. apply (Her (s :: past) ws Eb). rewrite Bw. unfold can_carry. cbn [map qsum fold_right].
        pose proof He as (_ & _ & _ & _ & _ & _ & _ & _ & _ & _ & _ & HD). unfold sediment. pose proof (mul_nn (rhog (bedp e) * (1 - porosity (bedp e))) h ltac:(lra) Hh). lra.
      - apply Qle_trans with (level s j); [apply qmin_l|]. assert (X : 0 <= level s1 j - level s j - lifted y j); [|lra]. apply sediment_le.
        apply Qle_trans with (- (can_carry (winds y) j * (dt k / T k))); [|exact B7]. assert (Z : can_carry (winds y) j == 0).
        { destruct (blow (climate (s :: past))) as [ws|] eqn:Eb. rewrite Bw. apply (Hsp s past ws A Eb). rewrite Bw. reflexivity. }
        rewrite Z. unfold sediment. lra. }
    apply Qle_trans with (qmin (level s1 j) (z - h)); [|exact C]. apply qmin_glb; [exact D | apply qmin_r].
Qed.
(** Nothing carried, nothing lost. *)
Lemma days_bare m L climate j : plain_climate sp nf k climate -> (j < number_of_cells k)%nat -> (forall past ws, blow (climate past) = Some ws -> can_carry ws j == 0) -> never_lowered j climate ->
  forall n t0 past s s' t, sound_state nf k s -> equal_layers L s -> fits m s ->
  days sp k e m climate n t0 past s = Ok (Some (s', t)) -> (forall y, In y t -> gentle k L y) -> level s j <= level s' j.
Proof.
  intros Hcl Hj Hz Hnl n t0 past s s' t Hs HL Hf H Hg. pose proof He as (_ & _ & _ & _ & _ & _ & _ & _ & _ & _ & _ & HD).
  assert (A : erodes_at_most k e j 0 climate) by (intros p ws E; rewrite (Hz p ws E); unfold sediment; lra).
  pose proof (days_floor m L climate (level s j) 0 j Hcl Hj ltac:(intros s0 p ws _ E; apply (Hz (s0 :: p) ws E)) Hnl (or_introl A) ltac:(lra) n t0 past s s' t Hs HL Hf H Hg) as B.
  apply Qle_trans with (qmin (level s j) (level s j - 0)); [apply qmin_glb; lra | exact B].
Qed.
End Step.
