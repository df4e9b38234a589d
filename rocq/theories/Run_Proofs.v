(** Proofs about whole runs. *)
From Coq Require Import QArith Lia Lqa List Bool Arith Setoid.
From Verif Require Import Base Num Utils_Model Utils_Spec Utils_Proofs Utils_Cases Bed_Model Bed_Spec Bed_Proofs Bed_Cases Solver_Model Solver_Spec Linear Solver_Proofs Solver_Iter Solver_Balance Solver_Cases Run_Model Run_Spec.
Import ListNotations.
Open Scope Q_scope.

(** * Weights *)
Lemma set_nth_length n x l : length (set_nth n x l) = length l.
Proof. revert n; induction l as [|y l IH]; intros [|n]; cbn; auto. Qed.
Lemma set_nth_firstn n x l y : nth_error l n = Some y -> qsum (firstn (S n) (set_nth n x l)) == qsum (firstn (S n) l) - y + x.
Proof.
  revert n; induction l as [|z l IH]; intros [|n] H; try discriminate.
  - cbn in H. injection H as ->. cbn [set_nth]. cbn. ring.
  - cbn in H. specialize (IH n H). cbn [set_nth]. change (qsum (firstn (S (S n)) (z :: set_nth n x l))) with (z + qsum (firstn (S n) (set_nth n x l))).
    change (qsum (firstn (S (S n)) (z :: l))) with (z + qsum (firstn (S n) l)). rewrite IH. ring.
Qed.
Lemma set_nth_in n x l y : In y (set_nth n x l) -> y = x \/ In y l.
Proof. revert n; induction l as [|z l IH]; intros [|n] H; cbn in *; try tauto. destruct H as [H|H]; auto. destruct H as [H|H]; auto. destruct (IH n H); auto. Qed.
Lemma firstn_sum_le n l : Utils_Spec.all_nonneg l -> qsum (firstn n l) <= qsum l.
Proof.
  intros H. rewrite <- (firstn_skipn n l) at 2. rewrite qsum_app. assert (0 <= qsum (skipn n l)); [|lra].
  apply qsum_nonneg. intros x Hx. apply H. rewrite <- (firstn_skipn n l). apply in_or_app. auto.
Qed.

(** The weights before fraction [i]. *)
Definition weights_ok (nf : nat) (k : cfg) (i : nat) (w : nat -> list Q) : Prop :=
  forall j, (j < number_of_cells k)%nat -> length (w j) = nf /\ Utils_Spec.all_nonneg (w j) /\ qsum (firstn i (w j)) <= 1.
Lemma weights_renormalized nf k i w : (1 <= nf)%nat -> weights_ok nf k i w -> forall j, (j < number_of_cells k)%nat ->
  distribution (renormalize_weights (w j) i) /\ length (renormalize_weights (w j) i) = nf.
Proof.
  intros Hn Hw j Hj. destruct (Hw j Hj) as (H1 & H2 & H3). rewrite <- H1. apply c20_renormalize; try assumption. intros E. rewrite E in H1. cbn in H1. lia.
Qed.
Lemma distribution_le1 l : distribution l -> forall x, In x l -> 0 <= x <= 1.
Proof. intros (H1 & H2) x Hx. split. apply H1, Hx. rewrite <- H2. apply qsum_member; assumption. Qed.
Lemma weights_next nf k i w (o : nat -> Q) : (i < nf)%nat -> weights_ok nf k i w ->
  (forall j, (j < number_of_cells k)%nat -> 0 <= o j <= nth i (renormalize_weights (w j) i) 0) -> weights_ok nf k (S i) (fun c => set_nth i (o c) (renormalize_weights (w c) i)).
Proof.
  intros Hn Hw Ho j Hj. destruct (weights_renormalized nf k i w ltac:(lia) Hw j Hj) as (D & L). specialize (Ho j Hj). set (r := renormalize_weights (w j) i) in *.
  split; [rewrite set_nth_length; exact L|]. split.
  - intros y Hy. apply set_nth_in in Hy. destruct Hy as [-> | Hy]. apply Ho. apply D, Hy.
  - assert (E : nth_error r i = Some (nth i r 0)) by (apply nth_error_nth'; lia). rewrite (set_nth_firstn _ _ _ _ E).
    pose proof (firstn_sum_le (S i) r (proj1 D)). destruct D as (_ & D2). lra.
Qed.

(** * All fractions *)
(** What one fraction needs. *)
Definition good (sp : (nat -> nat -> Q) -> (nat -> Q) -> nat -> Q) (k : cfg) (fd : flow * input) : Prop :=
  rectangular k (fst fd) /\ lateral_uniform k (fst fd) /\ onshore_wind k (fst fd) /\ no_side_wind_in_1d k (fst fd) /\ quiet_ends k (fst fd) /\ nonnegative_ends k (fst fd) /\
  exact_solver (number_of_cells k) (matrix k (fst fd)) sp /\ nonnegative_input k (snd fd) /\ same_capacity k (snd fd).
Definition good_cfg (k : cfg) : Prop := sensible k /\ trunk k = true /\ alpha k == 1 /\ 0 < max_error k.
(** The outcome of a fraction from some weights between zero and one. *)
Definition comes_from (sp : (nat -> nat -> Q) -> (nat -> Q) -> nat -> Q) (k : cfg) (o : outcome) (fd : flow * input) : Prop :=
  exists w0, (forall j, (j < number_of_cells k)%nat -> 0 <= w0 j <= 1) /\ solve_fraction sp k (fst fd) (snd fd) w0 = Ok (Some o).

Lemma start_weight nf k i w : (i < nf)%nat -> weights_ok nf k i w -> forall j, (j < number_of_cells k)%nat ->
  memo (cells k) (fun c => nth i (renormalize_weights (w c) i) 0) j = nth i (renormalize_weights (w j) i) 0 /\ 0 <= nth i (renormalize_weights (w j) i) 0 <= 1.
Proof.
  intros Hn Hw j Hj. rewrite memo_get by (rewrite cells_eq; exact Hj). split. reflexivity.
  destruct (weights_renormalized nf k i w ltac:(lia) Hw j Hj) as (D & L). apply (distribution_le1 _ D). apply nth_In. lia.
Qed.
Lemma good_solution sp k fd w o : good_cfg k -> good sp k fd -> (forall j, (j < number_of_cells k)%nat -> 0 <= w j) -> solve_fraction sp k (fst fd) (snd fd) w = Ok (Some o) -> converged o = true ->
  Solver_Spec.all_nonneg (number_of_cells k) (ct o) /\ (forall i, (i < number_of_cells k)%nat -> 0 <= weight o i <= w i).
Proof.
  intros (C1 & C2 & C3 & C4) (G1 & G2 & G3 & G4 & G5 & G6 & G7 & G8 & G9) Hw Ho Hc.
  destruct (solution_exact sp k (fst fd) (snd fd) w C1 G1 G2 (onshore_gathers _ _ C1 G3) G5 ltac:(intros _; exact C3) G8 G6 C4 G7 Hw o Ho Hc) as (S1 & S2 & _). auto.
Qed.
Lemma fractions_from sp k nf : good_cfg k -> forall fs i w os w', (i + length fs <= nf)%nat -> weights_ok nf k i w -> (forall fd, In fd fs -> good sp k fd) ->
  fractions sp k i fs w = Ok (Some (os, w')) -> (forall o, In o os -> converged o = true) -> Forall2 (comes_from sp k) os fs.
Proof.
  intros Hk. induction fs as [|[f d] fs IH]; intros i w os w' Hn Hw Hg H Hc; cbn [fractions] in H. injection H as <- _. constructor.
  cbn [length] in Hn. pose proof (start_weight nf k i w ltac:(lia) Hw) as Hstart.
  destruct (solve_fraction sp k f d _) as [[o|]|] eqn:E; cbn [bind] in H; try discriminate.
  destruct (fractions sp k (S i) fs _) as [[[os1 w1]|]|] eqn:E1; cbn [bind] in H; try discriminate. injection H as <- <-.
  assert (Hw0 : forall j, (j < number_of_cells k)%nat -> 0 <= memo (cells k) (fun c => nth i (renormalize_weights (w c) i) 0) j <= 1) by (intros j Hj; destruct (Hstart j Hj) as (R1 & R2); rewrite R1; exact R2).
  constructor.
  - eexists. split; [exact Hw0 | exact E].
  - apply (IH (S i) _ os1 w1) in E1; [exact E1 | lia | | intros; apply Hg; right; assumption | intros; apply Hc; right; assumption].
    apply weights_next; [lia | exact Hw|]. intros j Hj.
    destruct (good_solution sp k (f, d) _ o Hk (Hg _ (or_introl eq_refl)) (fun j Hj => proj1 (Hw0 j Hj)) E (Hc o (or_introl eq_refl))) as (_ & S2).
    specialize (S2 j Hj). rewrite (proj1 (Hstart j Hj)) in S2. exact S2.
Qed.

(** * What the solver reads *)
Lemma map2_length {A B C} (f : A -> B -> C) : forall a b, length a = length b -> length (map2 f a b) = length a.
Proof. induction a; intros [|y b] H; cbn in *; try discriminate; auto. Qed.
Lemma map2_nth_error {A B C} (f : A -> B -> C) : forall a b i x y, nth_error a i = Some x -> nth_error b i = Some y -> nth_error (map2 f a b) i = Some (f x y).
Proof. induction a; intros [|z b] [|i] x y H1 H2; cbn in *; try discriminate. congruence. apply IHa; assumption. Qed.
Lemma map2_inv {A B C} (f : A -> B -> C) : forall a b i z, nth_error (map2 f a b) i = Some z -> exists x y, nth_error a i = Some x /\ nth_error b i = Some y /\ z = f x y.
Proof. induction a; intros [|y b] [|i] z H; cbn in *; try discriminate. injection H as <-. eauto. apply IHa, H. Qed.
Lemma seq_nth_error n : forall a i, (i < n)%nat -> nth_error (seq a n) i = Some (a + i)%nat.
Proof. induction n; intros a [|i] H; cbn; try lia. f_equal; lia. rewrite IHn by lia. f_equal; lia. Qed.
Lemma reads_nth s ws i fd : nth_error (all_reads s ws) i = Some fd <-> exists w, nth_error ws i = Some w /\ fd = reads s ws i w.
Proof.
  unfold all_reads. split.
  - intros H. apply map2_inv in H. destruct H as (x & w & H1 & H2 & ->). assert (i < length ws)%nat by (apply nth_error_Some; congruence).
    rewrite seq_nth_error in H1 by assumption. injection H1 as <-. eauto.
  - intros (w & H & ->). assert (i < length ws)%nat by (apply nth_error_Some; congruence). apply map2_nth_error; [|exact H]. apply seq_nth_error. assumption.
Qed.
Lemma reads_length s ws : length (all_reads s ws) = length ws.
Proof. unfold all_reads. rewrite map2_length; rewrite seq_length; reflexivity. Qed.

Section Step.
Variables (sp : (nat -> nat -> Q) -> (nat -> Q) -> nat -> Q) (nf : nat) (k : cfg) (e : setup) (g : nat -> nat -> Q).
Hypothesis (He : sound_setup nf k e).

Lemma setup_cfg : good_cfg k.
Proof. destruct He as (H1 & H2 & H3 & H4 & _). repeat split; try assumption; apply H1. Qed.

Lemma top_sound s j : sound_state nf k s -> (j < number_of_cells k)%nat -> length (top_layer s j) = nf /\ Utils_Spec.all_nonneg (top_layer s j) /\ 0 < qsum (top_layer s j).
Proof.
  intros (_ & _ & H3 & H4) Hj. unfold top_layer. destruct (nth_error (sand s) j) as [c|] eqn:E; [|apply nth_error_None in E; lia].
  destruct (H4 c (nth_error_In _ _ E)) as (A1 & A2 & A3 & A4). destruct (Bed_Model.mass c) as [|top rest]; [contradiction|]. cbn [hd].
  split; [apply A2; left; reflexivity|]. split; [apply A3; left; reflexivity | apply A4; left; reflexivity].
Qed.
Lemma nth_nonneg l i : Utils_Spec.all_nonneg l -> 0 <= nth i l 0.
Proof. intros H. destruct (nth_in_or_default i l 0) as [H1 | ->]; [apply H, H1 | lra]. Qed.
Lemma reads_good s ws : sound_state nf k s -> length ws = nf -> (forall w, In w ws -> fair_wind sp k g w) -> forall fd, In fd (all_reads s ws) -> good sp k fd.
Proof.
  intros Hs Hl Hw fd Hfd. apply In_nth_error in Hfd. destruct Hfd as (i & Hi). apply reads_nth in Hi. destruct Hi as (w & Hi & ->).
  destruct (Hw w (nth_error_In _ _ Hi)) as (W1 & W2 & W3 & W4 & W5 & W6 & W7 & _ & W9). assert (Hn : (i < nf)%nat) by (rewrite <- Hl; apply nth_error_Some; congruence).
  unfold good, reads. cbn [fst snd]. repeat (split; [assumption|]). split.
  - intros j Hj. destruct (W9 j Hj) as (V1 & V2 & V3). unfold capacity. cbn [Cu Cuf Cu0 mass lCt sat]. split; [|split; [|split; [|split]]]; try assumption.
    + destruct Hs as (L & A & _). apply A; [|exact Hj]. apply nth_In. rewrite L. exact Hn.
    + rewrite V3. assert (E : wCu w j * (1 - saturation s ws j) + wCu w j * saturation s ws j == wCu w j) by ring. rewrite E. exact V1.
    + apply nth_nonneg, (top_sound s j Hs Hj).
  - intros j Hj. apply (W9 j Hj).
Qed.
Lemma start_ok s ws t0 w : sound_state nf k s -> length ws = nf -> (forall w, In w ws -> fair_wind sp k g w) ->
  start_weights k t0 (bedcomp e) (grains e) (weights_now (bi e) s ws) = Ok w -> weights_ok nf k 0 w.
Proof.
  intros Hs Hl Hw H. destruct He as (E1 & E2 & E3 & E4 & E5 & E6 & E7 & E8 & E9 & _).
  assert (P : weights_ok nf k 0 (weights_now (bi e) s ws)).
  { intros j Hj. unfold weights_now. destruct (top_sound s j Hs Hj) as (T1 & T2 & T3). destruct Hs as (L & A & _).
    assert (D : distribution (compute_weights (bi e) (map (fun a => a j) (air s)) (map (fun w => wCu w j) ws) (top_layer s j))).
    { apply weights_distribution; rewrite ?map_length; try congruence; try assumption.
      - intros x Hx. apply in_map_iff in Hx. destruct Hx as (a & <- & Ha). apply A; assumption.
      - intros x Hx. apply in_map_iff in Hx. destruct Hx as (a & <- & Ha). apply (Hw a Ha). exact Hj. }
    split; [|split; [exact (proj1 D) | cbn; lra]]. unfold compute_weights. rewrite normalize_length. unfold w_air, w_bed, normalize_ref.
    rewrite map2_length; rewrite map2_length; rewrite ?normalize_length, ?map_length; congruence. }
  unfold start_weights in H. rewrite E2 in H. destruct t0; [destruct (bedcomp e)|]; injection H as <-; try exact P.
  intros j Hj. split; [exact E7|]. split; [exact E8 | cbn; lra].
Qed.

(** * The exchange of a step *)
Lemma inside_ext (a b : nat -> nat -> Q) : (forall r c, (r <= ny k)%nat -> (1 <= c)%nat -> (c < nx k)%nat -> a r c == b r c) -> over_inside k a == over_inside k b.
Proof. intros H. rewrite !over_inside_sumn. apply sumn_ext. intros r Hr. apply sumn_ext. intros j Hj. apply H; lia. Qed.
Lemma inside_plus (a b : nat -> nat -> Q) : over_inside k (fun r c => a r c + b r c) == over_inside k a + over_inside k b.
Proof. rewrite !over_inside_sumn. rewrite <- sumn_plus. apply sumn_ext. intros r _. apply sumn_plus. Qed.
Lemma inside_minus (a b : nat -> nat -> Q) : over_inside k (fun r c => a r c - b r c) == over_inside k a - over_inside k b.
Proof. rewrite !over_inside_sumn. rewrite <- sumn_minus. apply sumn_ext. intros r _. apply sumn_minus. Qed.
Lemma inside_zero (a : nat -> nat -> Q) : (forall r c, a r c == 0) -> over_inside k a == 0.
Proof. intros H. rewrite !over_inside_sumn. apply sumn_zero. intros r _. apply sumn_zero. intros j _. apply H. Qed.
Definition gap (a : nat -> Q) (o : outcome) (r c : nat) : Q := g r c * (at_cell k (ct o) r c - at_cell k a r c - at_cell k (pickup o) r c).
Lemma sum_gaps (E : Q) : forall (os : list outcome) (ws : list wind) (old : list (nat -> Q)), length ws = length os -> length old = length os ->
  (forall i o w a, nth_error os i = Some o -> nth_error ws i = Some w -> nth_error old i = Some a -> 0 <= over_inside k (gap a o) - through_ends k (speed w) (ct o) <= E) ->
  0 <= over_inside k (fun r c => g r c * (qsum (map (fun o => at_cell k (ct o) r c) os) - qsum (map (fun a => at_cell k a r c) old) - qsum (map (fun o => at_cell k (pickup o) r c) os)))
       - blown_step k ws os <= inject_Z (Z.of_nat (length os)) * E.
Proof.
  induction os as [|o os IH]; intros [|w ws] [|a old] H1 H2 H; try discriminate.
  - rewrite inside_zero by (intros; cbn; ring). unfold blown_step. cbn [map2 qsum fold_right length]. change (inject_Z (Z.of_nat 0)) with 0. lra.
  - cbn [length] in H1, H2. specialize (IH ws old ltac:(lia) ltac:(lia)). specialize (IH ltac:(intros i o' w' a' A B C; exact (H (S i) o' w' a' A B C))).
    specialize (H 0%nat o w a eq_refl eq_refl eq_refl). unfold blown_step in *. cbn [map map2 length].
    assert (X : over_inside k (fun r c => g r c * (qsum (at_cell k (ct o) r c :: map (fun o => at_cell k (ct o) r c) os) - qsum (at_cell k a r c :: map (fun a => at_cell k a r c) old) - qsum (at_cell k (pickup o) r c :: map (fun o => at_cell k (pickup o) r c) os)))
      == over_inside k (gap a o) + over_inside k (fun r c => g r c * (qsum (map (fun o => at_cell k (ct o) r c) os) - qsum (map (fun a => at_cell k a r c) old) - qsum (map (fun o => at_cell k (pickup o) r c) os)))).
    { rewrite <- inside_plus. apply inside_ext. intros r c _ _ _. unfold gap. cbn [qsum fold_right]. fold (qsum (map (fun o => at_cell k (ct o) r c) os)). fold (qsum (map (fun a => at_cell k a r c) old)). fold (qsum (map (fun o => at_cell k (pickup o) r c) os)). ring. }
    rewrite X. cbn [qsum fold_right]. fold (qsum (map2 (fun w o => through_ends k (speed w) (ct o)) ws os)). rewrite Nat2Z.inj_succ, <- Z.add_1_r, inject_Z_plus. change (inject_Z 1) with 1. lra.
Qed.
Lemma gap_unexplained w d o : rectangular k (speed w) -> (forall r c, (r <= ny k)%nat -> (c <= nx k)%nat -> area (speed w) r c == g r c) ->
  over_inside k (gap (lCt d) o) - through_ends k (speed w) (ct o) == unexplained k (speed w) d o.
Proof.
  intros _ H. unfold unexplained. assert (X : over_inside k (gap (lCt d) o) == over_inside k (fun r c => area (speed w) r c * (at_cell k (ct o) r c - at_cell k (lCt d) r c)) - over_inside k (fun r c => area (speed w) r c * at_cell k (pickup o) r c)); [|lra].
  rewrite <- inside_minus. apply inside_ext. intros r c Hr H1 H2. unfold gap. rewrite (H r c Hr ltac:(lia)). ring.
Qed.

(** * One step *)
Lemma Forall2_nth {A B} (R : A -> B -> Prop) : forall l m, Forall2 R l m -> forall i a b, nth_error l i = Some a -> nth_error m i = Some b -> R a b.
Proof. induction 1; intros [|i] u v H1 H2; cbn in *; try discriminate. injection H1 as <-. injection H2 as <-. assumption. eauto. Qed.
Lemma Forall2_len {A B} (R : A -> B -> Prop) l m : Forall2 R l m -> length l = length m.
Proof. induction 1; cbn; congruence. Qed.
Lemma combine_seq_nth {A} (l : list A) : forall a j x, nth_error l j = Some x -> nth_error (combine (seq a (length l)) l) j = Some ((a + j)%nat, x).
Proof. induction l as [|y l IH]; intros a [|j] x H; cbn in *; try discriminate. injection H as <-. f_equal. f_equal. lia. rewrite (IH (S a) j x H). f_equal. f_equal. lia. Qed.
Lemma step_inv t0 s ws s' os : step sp k e t0 s ws = Ok (Some (s', os)) ->
  exists w, start_weights k t0 (bedcomp e) (grains e) (weights_now (bi e) s ws) = Ok w /\ fractions sp k 0 (all_reads s ws) w = Ok (Some (os, oldw s')) /\
    air s' = map ct os /\ sand s' = settle (bedp e) (base e) os (sand s).
Proof.
  unfold step, solve. destruct (start_weights _ _ _ _ _) as [w|]; cbn [bind]; [|discriminate]. intros H. exists w. split; [reflexivity|].
  destruct (fractions sp k 0 _ w) as [[[os' w']|]|]; cbn [bind] in H; try discriminate. injection H as <- <-. cbn. auto.
Qed.
Lemma settle_nth s os j c : (forall c, In c (sand s) -> sound_layers nf (Bed_Model.mass c)) -> length os = nf -> nth_error (sand s) j = Some c ->
  (forall i o, nth_error os i = Some o -> pickup o j <= nth i (top_layer s j) 0) ->
  (forall l, In l (Bed_Model.mass c) -> qabs (net_deposit (picked os j)) <= qsum l) -> net_deposit (picked os j) < qsum (hd [] (Bed_Model.mass c)) ->
  exists c', nth_error (settle (bedp e) (base e) os (sand s)) j = Some c' /\ sound_layers nf (Bed_Model.mass c') /\ same (layer_masses (Bed_Model.mass c')) (layer_masses (Bed_Model.mass c)) /\
    zb c' == zb c + net_deposit (picked os j) / (rhog (bedp e) * (1 - porosity (bedp e))).
Proof.
  intros Hs Hl Hc Hp Hm Hd. pose proof He as (_ & _ & _ & _ & _ & _ & _ & _ & _ & E10 & E11 & _).
  destruct (Hs c (nth_error_In _ _ Hc)) as (A1 & A2 & A3 & A4). unfold settle.
  assert (Hn : nth_error (map (handed os (base e)) (combine (seq 0 (length (sand s))) (sand s))) j = Some (handed os (base e) (j, c))).
  { rewrite nth_error_map, (combine_seq_nth (sand s) 0 j c Hc). reflexivity. }
  unfold handed in Hn at 2. cbn [fst snd] in Hn. set (c1 := {| Bed_Model.mass := _; Bed_Model.pickup := _; zb := _; zs := _ |}) in Hn.
  destruct (E10 j) as (B1 & B2).
  assert (Hsound : sound_cell nf c1).
  { unfold sound_cell, c1. cbn [Bed_Model.mass Bed_Model.pickup]. split; [unfold picked; rewrite map_length; exact Hl|]. split; [exact A2|]. split; [exact A3|].
    unfold top_layer in Hp. rewrite Hc in Hp. destruct (Bed_Model.mass c) as [|top rest]; [contradiction|]. exists top, rest. split; [reflexivity|]. split; [apply A4; left; reflexivity|].
    intros i. cbn [hd] in Hp. destruct (nth_error os i) as [o|] eqn:E.
    - unfold picked. rewrite (nth_error_nth _ i 0 (map_nth_error (fun o => pickup o j) i os E)). apply (Hp i o E).
    - apply nth_error_None in E. rewrite nth_overflow by (unfold picked; rewrite map_length; exact E). apply nth_nonneg. apply A3. left; reflexivity. }
  destruct (update_moderate (bedp e) nf _ j c1 (base e j) Hn Hsound B1 B2) as (c' & out & U1 & U2 & U3 & U4 & _ & _ & _ & _ & _ & U5).
  - intros l Hin. unfold c1 in *. cbn [Bed_Model.mass Bed_Model.pickup] in *. split; [apply A4, Hin | apply Hm, Hin].
  - unfold c1. cbn [Bed_Model.mass Bed_Model.pickup]. destruct (Bed_Model.mass c); [contradiction|]. exact Hd.
  - exists c'. split; [exact U1|]. cbn [c1 Bed_Model.mass] in U4. split; [|split; [exact U4 | apply (U5 E11)]].
    split; [|split; [exact U2 | split; [exact U3|]]].
    + intros E. rewrite E in U4. destruct (Bed_Model.mass c); [contradiction|]. inversion U4.
    + intros l Hin. apply In_nth_error in Hin. destruct Hin as (i & Hi). unfold same, layer_masses in U4.
      assert (Li : exists l0, nth_error (Bed_Model.mass c) i = Some l0).
      { destruct (nth_error (Bed_Model.mass c) i) eqn:E; [eauto|]. apply nth_error_None in E. apply Forall2_len in U4. rewrite !map_length in U4. assert (i < length (Bed_Model.mass c'))%nat by (apply nth_error_Some; congruence). lia. }
      destruct Li as (l0 & Hl0). pose proof (Forall2_nth _ _ _ U4 i _ _ (map_nth_error qsum i _ Hi) (map_nth_error qsum i _ Hl0)) as X. cbv beta in X. rewrite X. apply A4. eapply nth_error_In; exact Hl0.
Qed.
Lemma settle_length s os : length (settle (bedp e) (base e) os (sand s)) = length (sand s).
Proof. unfold settle, update. rewrite !map_length, combine_length, seq_length. lia. Qed.

Lemma step_balance t0 s ws s' os : sound_state nf k s -> length ws = nf -> (forall w, In w ws -> fair_wind sp k g w) -> step sp k e t0 s ws = Ok (Some (s', os)) ->
  (forall o, In o os -> converged o = true) -> moderate (sand s) os ->
  sound_state nf k s' /\ same_layers (sand s) (sand s') /\ length os = nf /\
  0 <= content k e g s' - content k e g s - blown_step k ws os <= inject_Z (Z.of_nat nf) * (max_error k * over_inside k g).
Proof.
  intros Hs Hl Hw H Hc Hm. destruct (step_inv _ _ _ _ _ H) as (w & W & F & Ha & Hsd). pose proof setup_cfg as Hk. pose proof (start_ok s ws t0 w Hs Hl Hw W) as Hw0.
  pose proof (reads_good s ws Hs Hl Hw) as Hg.
  pose proof (fractions_from sp k nf Hk (all_reads s ws) 0 w os (oldw s') ltac:(rewrite reads_length; lia) Hw0 Hg F Hc) as Hfrom.
  assert (Lo : length os = nf) by (rewrite (Forall2_len _ _ _ Hfrom), reads_length; exact Hl).
  assert (Each : forall i o, nth_error os i = Some o -> exists wi w0, nth_error ws i = Some wi /\ In wi ws /\ (forall j, (j < number_of_cells k)%nat -> 0 <= w0 j <= 1) /\
    solve_fraction sp k (speed wi) (snd (reads s ws i wi)) w0 = Ok (Some o) /\ converged o = true /\ good sp k (reads s ws i wi)).
  { intros i o Hi. assert (i < length ws)%nat by (rewrite Hl, <- Lo; apply nth_error_Some; congruence). destruct (nth_error ws i) as [wi|] eqn:E; [|apply nth_error_None in E; lia].
    assert (R : nth_error (all_reads s ws) i = Some (reads s ws i wi)) by (apply reads_nth; eauto).
    destruct (Forall2_nth _ _ _ Hfrom i o _ Hi R) as (w0 & P1 & P2). exists wi, w0. split; [reflexivity|]. split; [eapply nth_error_In; exact E|]. split; [exact P1|]. split; [exact P2|].
    split; [apply Hc; eapply nth_error_In; exact Hi|]. apply Hg. eapply nth_error_In; exact R. }
  assert (Cells : forall j c, nth_error (sand s) j = Some c -> exists c', nth_error (sand s') j = Some c' /\ sound_layers nf (Bed_Model.mass c') /\
    same (layer_masses (Bed_Model.mass c')) (layer_masses (Bed_Model.mass c)) /\ zb c' == zb c + net_deposit (picked os j) / (rhog (bedp e) * (1 - porosity (bedp e)))).
  { intros j c Hj. rewrite Hsd. destruct (Hm j c Hj) as (M1 & M2). destruct Hs as (S1 & S2 & S3 & S4). apply settle_nth; try assumption.
    intros i o Hi. destruct (Each i o Hi) as (wi & w0 & _ & _ & _ & P & Q & _).
    assert (Hjn : (j < number_of_cells k)%nat) by (rewrite <- S3; apply nth_error_Some; congruence). apply (pickup_within sp k _ _ _ _ P Q j Hjn). }
  assert (Ls : length (sand s') = length (sand s)) by (rewrite Hsd; apply settle_length).
  split; [|split; [|split; [exact Lo|]]].
  - split; [rewrite Ha, map_length; exact Lo|]. split; [|split].
    + intros a Hin. rewrite Ha in Hin. apply in_map_iff in Hin. destruct Hin as (o & <- & Hin). apply In_nth_error in Hin. destruct Hin as (i & Hi).
      destruct (Each i o Hi) as (wi & w0 & _ & _ & P0 & P & Q & G). apply (good_solution sp k _ w0 o Hk G (fun j Hj => proj1 (P0 j Hj)) P Q).
    + rewrite Ls. apply Hs.
    + intros c' Hin. apply In_nth_error in Hin. destruct Hin as (j & Hj). assert (j < length (sand s))%nat by (rewrite <- Ls; apply nth_error_Some; congruence).
      destruct (nth_error (sand s) j) as [c|] eqn:E; [|apply nth_error_None in E; lia]. destruct (Cells j c E) as (c'' & X & Y & _). congruence.
  - unfold same_layers. clear - Cells Ls. revert Cells Ls. generalize (sand s) as cs, (sand s') as cs', (picked os) as pk. induction cs as [|c cs IH]; intros [|c' cs'] pk Cells Ls; try discriminate; constructor.
    + destruct (Cells 0%nat c eq_refl) as (c'' & X & _ & Y & _). injection X as <-. exact Y.
    + apply (IH cs' (fun j => pk (S j))); [|cbn in Ls; lia]. intros j x Hj. exact (Cells (S j) x Hj).
  - pose proof Hs as (S1 & S2 & S3 & S4). pose proof He as (_ & _ & _ & _ & _ & _ & _ & _ & _ & _ & _ & E12).
    assert (X : content k e g s' - content k e g s == over_inside k (fun r c => g r c * (qsum (map (fun o => at_cell k (ct o) r c) os) - qsum (map (fun a => at_cell k a r c) (air s)) - qsum (map (fun o => at_cell k (pickup o) r c) os)))).
    { unfold content. rewrite <- inside_minus. apply inside_ext. intros r c Hr H1 H2. set (j := (r * S (nx k) + c)%nat).
      assert (Hj : (j < length (sand s))%nat) by (rewrite S3, <- cells_eq; apply (rc_lt k); lia). unfold level.
      destruct (nth_error (sand s) j) as [cl|] eqn:E; [|apply nth_error_None in E; lia]. destruct (Cells j cl E) as (c' & -> & _ & _ & Z). rewrite Z, Ha, map_map.
      change (map (fun o => at_cell k (pickup o) r c) os) with (picked os j). unfold net_deposit. set (D := rhog (bedp e) * (1 - porosity (bedp e))) in *. field. lra. }
    rewrite X. rewrite <- Lo. apply sum_gaps; [congruence | congruence|]. intros i o wi a Hi Hwi Hai.
    destruct (Each i o Hi) as (wi' & w0 & Q1 & Q2 & Q3 & Q4 & Q5 & Q6). rewrite Hwi in Q1. injection Q1 as <-.
    destruct (Hw wi Q2) as (V1 & V2 & V3 & V4 & V5 & V6 & V7 & V8 & V9). destruct Hk as (K1 & K2 & K3 & K4).
    replace a with (lCt (snd (reads s ws i wi))) by (cbn; apply nth_error_nth; exact Hai). rewrite (gap_unexplained wi _ o V1 V8).
    assert (Ar : over_inside k g == over_inside k (area (speed wi))) by (apply inside_ext; intros; symmetry; apply V8; lia). rewrite Ar.
    destruct Q6 as (_ & _ & _ & _ & _ & _ & _ & G8 & G9).
    apply (mass_explained sp k (speed wi) _ w0); try assumption. intros _; exact K3. intros j Hj; apply Q3, Hj.
Qed.
End Step.
