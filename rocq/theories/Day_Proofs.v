(** Proofs about whole runs with waves and feedback. *)
From Coq Require Import QArith Lia Lqa List Bool Arith Setoid.
From Verif Require Import Base Num Utils_Model Utils_Spec Utils_Proofs Bed_Model Bed_Spec Bed_Proofs Bed_Cases Solver_Model Solver_Spec Linear Solver_Proofs Solver_Iter Solver_Balance Solver_Cases Run_Model Run_Spec Run_Proofs Run_Whole Run_Cases Day_Model Day_Spec.
Import ListNotations.
Open Scope Q_scope.

(** * Mixing *)
Lemma mix_cell_length any nf fac c : length (thlyr c) = length (mixmass c) -> length (mix_cell any nf fac c) = length (mixmass c).
Proof. intros H. destruct any; [|reflexivity]. rewrite mix_cell_eq. unfold mixed. rewrite map2_length; rewrite with_top_length, disturbed_length; [symmetry; symmetry; exact H | exact H]. Qed.
Lemma mix_cell_shape any nf fac c : shaped nf (mixmass c) -> shaped nf (mix_cell any nf fac c).
Proof.
  intros S. destruct any; [|exact S]. rewrite mix_cell_eq. set (ix := with_top true _). set (f := mixfraction _ _).
  assert (L : length (layer_mean nf (selected ix (mixmass c))) = nf) by (apply layer_mean_length; intros l Hl; apply S; exact (selected_in _ _ _ Hl)).
  intros l Hl. unfold mixed in Hl. revert Hl S L. generalize (layer_mean nf (selected ix (mixmass c))). generalize (mixmass c). clearbody ix f. intros b mean Hl S Lm. revert ix Hl S.
  induction b as [|x b IH]; intros [|i ix] Hl S; cbn [map2] in Hl; try contradiction. destruct Hl as [<- | Hl].
  - destruct i. unfold blend. rewrite map2_length. exact Lm. rewrite Lm. symmetry. apply S. left. reflexivity. apply S. left. reflexivity.
  - apply (IH ix Hl). intros y Hy. apply S. right. exact Hy.
Qed.
Lemma map2_nth {A B C} (f : A -> B -> C) : forall l m j, length l = length m -> nth_error (map2 f l m) j = match nth_error l j, nth_error m j with Some a, Some b => Some (f a b) | _, _ => None end.
Proof. induction l as [|a l IH]; intros [|b m] [|j] H; cbn in *; try discriminate; try reflexivity. apply IH. lia. Qed.
Definition mixcells (m : mixing) (hs : nat -> Q) (cs : list bedcell) : list mixcell := map (fun jc => {| thlyr := thick m (fst jc); mixmass := Bed_Model.mass (snd jc); hsmix := hs (fst jc) |}) (combine (seq 0 (length cs)) cs).
Lemma mixcells_nth m hs cs j c : nth_error cs j = Some c -> nth_error (mixcells m hs cs) j = Some {| thlyr := thick m j; mixmass := Bed_Model.mass c; hsmix := hs j |}.
Proof. intros H. unfold mixcells. rewrite nth_error_map, (combine_seq_nth cs 0 j c H). reflexivity. Qed.
Lemma mixcells_length m hs cs : length (mixcells m hs cs) = length cs.
Proof. unfold mixcells. rewrite map_length, combine_length, seq_length. lia. Qed.
Lemma mixtop_length p nf fac cs : length (mixtoplayer p nf fac cs) = length cs.
Proof. unfold mixtoplayer. destruct p; apply map_length. Qed.
Lemma stirred_length nf m hs cs : length (stirred nf m hs cs) = length cs.
Proof. unfold stirred. fold (mixcells m hs cs). apply map2_length. rewrite mixtop_length, mixcells_length. reflexivity. Qed.
Lemma stirred_nth nf m hs cs j c : nth_error cs j = Some c -> length (thick m j) = length (Bed_Model.mass c) -> Utils_Spec.all_nonneg (thick m j) -> shaped nf (Bed_Model.mass c) -> nonneg_bed (Bed_Model.mass c) ->
  exists m', nth_error (stirred nf m hs cs) j = Some {| Bed_Model.mass := m'; Bed_Model.pickup := Bed_Model.pickup c; zb := zb c; zs := zs c |} /\
    (forall i, fraction_mass i m' == fraction_mass i (Bed_Model.mass c)) /\ nonneg_bed m' /\ shaped nf m' /\ length m' = length (Bed_Model.mass c) /\
    (forall M, (forall l, In l (Bed_Model.mass c) -> qsum l == M) -> forall l, In l m' -> qsum l == M).
Proof.
  intros H Hl Ht Hs Hn. pose proof (mixcells_nth m hs cs j c H) as Hm. destruct (mix_grid (mixes m) nf (depth m) (mixcells m hs cs) j _ Hm Hl Hs Hn Ht) as (m' & E & F & N & ML & _). cbn [mixmass] in *.
  exists m'. split. { unfold stirred. fold (mixcells m hs cs). rewrite map2_nth by (rewrite mixtop_length, mixcells_length; reflexivity). rewrite H, E. reflexivity. }
  split. exact F. split. exact N. unfold mixtoplayer in E. destruct (mixes m).
  - rewrite nth_error_map, Hm in E. injection E as <-. split. apply mix_cell_shape. exact Hs. split. apply mix_cell_length. exact Hl. exact ML.
  - rewrite nth_error_map, Hm in E. injection E as <-. split. exact Hs. split. reflexivity. exact ML.
Qed.
Lemma stirred_height nf m hs cs j : height (stirred nf m hs cs) j = height cs j.
Proof.
  unfold height, stirred. fold (mixcells m hs cs). rewrite map2_nth by (rewrite mixtop_length, mixcells_length; reflexivity). destruct (nth_error cs j) as [c|] eqn:E; [|reflexivity].
  destruct (nth_error (mixtoplayer _ _ _ _) j) eqn:E'; [reflexivity|]. exfalso. apply nth_error_None in E'. rewrite mixtop_length, mixcells_length in E'. apply nth_error_None in E'. congruence.
Qed.
Lemma stirred_sound nf k m hs s L : sound_state nf k s -> equal_layers L s -> fits m s ->
  let s1 := with_sand s (stirred nf m hs (sand s)) in sound_state nf k s1 /\ equal_layers L s1 /\ fits m s1 /\ same_grains (sand s) (sand s1).
Proof.
  intros (S1 & S2 & S3 & S4) HL Hf s1.
  assert (G : forall j c', nth_error (stirred nf m hs (sand s)) j = Some c' -> exists c, nth_error (sand s) j = Some c /\ (forall i, fraction_mass i (Bed_Model.mass c') == fraction_mass i (Bed_Model.mass c)) /\ zb c' == zb c /\ nonneg_bed (Bed_Model.mass c') /\ shaped nf (Bed_Model.mass c') /\ length (Bed_Model.mass c') = length (Bed_Model.mass c) /\
    (forall l, In l (Bed_Model.mass c') -> qsum l == L)).
  { intros j c' H. assert (Hj : (j < length (sand s))%nat) by (rewrite <- (stirred_length nf m hs); apply nth_error_Some; congruence). destruct (nth_error (sand s) j) as [c|] eqn:E; [|apply nth_error_None in E; lia].
    destruct (Hf j c E) as (F1 & F2). destruct (S4 c (nth_error_In _ _ E)) as (_ & L2 & L3 & _). destruct (stirred_nth nf m hs (sand s) j c E F1 F2 L2 L3) as (m' & E' & A & B & C & D & X). rewrite E' in H. injection H as <-. exists c. cbn [Bed_Model.mass zb].
    split. reflexivity. split. exact A. split. reflexivity. split. exact B. split. exact C. split. exact D. apply X. intros l Hl. apply (HL c (nth_error_In _ _ E) l Hl). }
  assert (HL0 : forall c, In c (sand s) -> 0 < L). { intros c Hc. destruct (S4 c Hc) as (Hne & _ & _ & Hp). destruct (Bed_Model.mass c) as [|l ls] eqn:E; [congruence|]. rewrite <- (HL c Hc l) by (rewrite E; left; reflexivity). apply Hp. left. reflexivity. }
  split; [|split; [|split]].
  - split. exact S1. split. exact S2. split. cbn [s1 with_sand sand]. rewrite stirred_length. exact S3. intros c' Hc'. apply In_nth_error in Hc'. destruct Hc' as (j & Hj). destruct (G j c' Hj) as (c & E & _ & _ & N & Sh & Le & Ma). destruct (S4 c (nth_error_In _ _ E)) as (Hne & _).
    split. intros Z. rewrite Z in Le. destruct (Bed_Model.mass c); [congruence | discriminate]. split. exact Sh. split. exact N. intros l Hl. rewrite (Ma l Hl). apply (HL0 c (nth_error_In _ _ E)).
  - intros c' Hc' l Hl. apply In_nth_error in Hc'. destruct Hc' as (j & Hj). destruct (G j c' Hj) as (c & _ & _ & _ & _ & _ & _ & Ma). apply Ma, Hl.
  - intros j c' Hj. destruct (G j c' Hj) as (c & E & _ & _ & _ & _ & Le & _). destruct (Hf j c E) as (F1 & F2). split; [congruence | exact F2].
  - cbn [s1 with_sand sand]. clear s1. assert (Len := stirred_length nf m hs (sand s)). revert G Len. generalize (stirred nf m hs (sand s)). generalize (sand s). clear. induction l as [|c l IH]; intros [|c' l'] G Len; cbn in Len; try discriminate; constructor.
    + destruct (G 0%nat c' eq_refl) as (x & E & A & B & _). injection E as <-. split; assumption.
    + apply IH; [|lia]. intros j x Hx. apply (G (S j) x Hx).
Qed.
Lemma content_levels k e g s s' : air s' = air s -> (forall j, level s' j == level s j) -> content k e g s' == content k e g s.
Proof. intros Ha Hl. unfold content. apply inside_ext. intros r c _ _ _. rewrite Ha, Hl. reflexivity. Qed.

(** * Reshaping *)
Lemma nth_error_ext {A} : forall l m : list A, (forall j, nth_error l j = nth_error m j) -> l = m.
Proof. induction l as [|a l IH]; intros [|b m] H. reflexivity. specialize (H 0%nat). discriminate. specialize (H 0%nat). discriminate. f_equal. specialize (H 0%nat). now injection H. apply IH. intros j. apply (H (S j)). Qed.
Lemma reshaped_nth f cs j : nth_error (reshaped f cs) j = match nth_error cs j with Some c => Some {| Bed_Model.mass := Bed_Model.mass c; Bed_Model.pickup := Bed_Model.pickup c; zb := f (height cs) j; zs := zs c |} | None => None end.
Proof.
  unfold reshaped. rewrite nth_error_map. destruct (nth_error cs j) as [c|] eqn:E. rewrite (combine_seq_nth cs 0 j c E). reflexivity.
  replace (nth_error (combine (seq 0 (length cs)) cs) j) with (@None (nat * bedcell)). reflexivity. symmetry. apply nth_error_None. apply nth_error_None in E. rewrite combine_length, seq_length. lia.
Qed.
Lemma reshaped_length f cs : length (reshaped f cs) = length cs.
Proof. unfold reshaped. rewrite map_length, combine_length, seq_length. lia. Qed.
Lemma reshaped_in f cs c' : In c' (reshaped f cs) -> exists c, In c cs /\ Bed_Model.mass c' = Bed_Model.mass c.
Proof. intros H. apply In_nth_error in H. destruct H as (j & H). rewrite reshaped_nth in H. destruct (nth_error cs j) as [c|] eqn:E; [|discriminate]. injection H as <-. exists c. split. apply (nth_error_In _ _ E). reflexivity. Qed.
Lemma reshaped_sound nf k m f s L : sound_state nf k s -> equal_layers L s -> fits m s -> let s' := with_sand s (reshaped f (sand s)) in sound_state nf k s' /\ equal_layers L s' /\ fits m s'.
Proof.
  intros (S1 & S2 & S3 & S4) HL Hf s'. split; [|split].
  - split. exact S1. split. exact S2. split. cbn [s' with_sand sand]. rewrite reshaped_length. exact S3. intros c' Hc'. destruct (reshaped_in _ _ _ Hc') as (c & Hc & ->). apply S4, Hc.
  - intros c' Hc'. destruct (reshaped_in _ _ _ Hc') as (c & Hc & ->). apply HL, Hc.
  - intros j c' Hj. cbn [s' with_sand sand] in Hj. rewrite reshaped_nth in Hj. destruct (nth_error (sand s) j) as [c|] eqn:E; [|discriminate]. injection Hj as <-. apply (Hf j c E).
Qed.
Lemma reshaped_content k e g f s : length (sand s) = number_of_cells k ->
  content k e g (with_sand s (reshaped f (sand s))) == content k e g s + sand_lifted_day k e g {| winds := []; results := []; lifted := fun j => f (height (sand s)) j - height (sand s) j |}.
Proof.
  intros Hn. unfold content, sand_lifted_day. rewrite <- inside_plus. apply inside_ext. intros r c Hr H1 H2. cbn [with_sand air lifted]. assert (Hi : (r * S (nx k) + c < length (sand s))%nat) by (rewrite Hn, <- cells_eq; apply (rc_lt k r c); lia).
  unfold level. cbn [with_sand sand]. rewrite reshaped_nth. generalize (f (height (sand s)) (r * S (nx k) + c)%nat). intros z. unfold height. destruct (nth_error (sand s) (r * S (nx k) + c)) as [x|] eqn:E; [|apply nth_error_None in E; lia]. cbn [zb]. ring.
Qed.

(** * Steps *)
Lemma gentle_moderate nf k L s os : sound_state nf k s -> equal_layers L s -> (forall j, (j < number_of_cells k)%nat -> qabs (net_deposit (picked os j)) <= L /\ net_deposit (picked os j) < L) -> moderate (sand s) os.
Proof.
  intros (_ & _ & S3 & S4) HL H j c Hj. assert (Hjn : (j < number_of_cells k)%nat) by (rewrite <- S3; apply nth_error_Some; congruence). destruct (H j Hjn) as (A & B). pose proof (nth_error_In _ _ Hj) as Hc.
  split. intros l Hl. rewrite (HL c Hc l Hl). exact A. destruct (S4 c Hc) as (Hne & _). specialize (HL c Hc). destruct (Bed_Model.mass c) as [|l ls]; [congruence|]. cbn [hd]. rewrite (HL l (or_introl eq_refl)). exact B.
Qed.
Lemma moderate_gentle nf k L s os : sound_state nf k s -> equal_layers L s -> moderate (sand s) os -> forall j, (j < number_of_cells k)%nat -> qabs (net_deposit (picked os j)) <= L /\ net_deposit (picked os j) < L.
Proof.
  intros (_ & _ & S3 & S4) HL H j Hj. destruct (nth_error (sand s) j) as [c|] eqn:E; [|apply nth_error_None in E; lia]. destruct (H j c E) as (A & B). pose proof (nth_error_In _ _ E) as Hc. destruct (S4 c Hc) as (Hne & _). specialize (HL c Hc).
  destruct (Bed_Model.mass c) as [|l ls]; [congruence|]. cbn [hd] in B. rewrite <- (HL l (or_introl eq_refl)). split. apply A. left. reflexivity. exact B.
Qed.
Lemma fits_kept m s s' : same_layers (sand s) (sand s') -> fits m s -> fits m s'.
Proof.
  intros H Hf j c' Hc'. assert (j < length (sand s))%nat by (rewrite (Forall2_len _ _ _ H); apply nth_error_Some; congruence). destruct (nth_error (sand s) j) as [c|] eqn:E; [|apply nth_error_None in E; lia].
  pose proof (Forall2_nth _ _ _ H j c c' E Hc') as X. cbv beta in X. apply Forall2_len in X. unfold layer_masses in X. rewrite !map_length in X. destruct (Hf j c E) as (A & B). split; [congruence | exact B].
Qed.
Definition tolerance (nf : nat) (k : cfg) (g : nat -> nat -> Q) : Q := inject_Z (Z.of_nat nf) * (max_error k * over_inside k g).
Lemma whole_step_balance sp nf k e m g L t0 s d s' y : sound_setup nf k e -> sound_state nf k s -> equal_layers L s -> fits m s ->
  (forall ws, blow d = Some ws -> length ws = nf /\ forall w, In w ws -> fair_wind sp k g w) -> whole_step sp k e m t0 s d = Ok (Some (s', y)) -> gentle k L y ->
  sound_state nf k s' /\ equal_layers L s' /\ fits m s' /\
  0 <= content k e g s' - content k e g s - blown_step k (winds y) (results y) - sand_lifted_day k e g y <= inject_Z (Z.of_nat (windy_days [y])) * tolerance nf k g.
Proof.
  intros He Hs HL Hf Hd H Hg. assert (Hnf : length (grains e) = nf) by (destruct He as (_ & _ & _ & _ & _ & _ & E & _); exact E). unfold whole_step in H. rewrite Hnf in H.
  destruct (stirred_sound nf k m (heights d) s L Hs HL Hf) as (M1 & M2 & M3 & _). set (s1 := with_sand s (stirred nf m (heights d) (sand s))) in *.
  assert (Hc1 : content k e g s1 == content k e g s) by (apply content_levels; [reflexivity | intros j; pose proof (stirred_height nf m (heights d) (sand s) j) as X; unfold height in X; unfold level; cbn [s1 with_sand sand]; rewrite X; reflexivity]).
  destruct (blow d) as [ws|] eqn:Eb.
  - destruct (Hd ws eq_refl) as (Hl & Hw). destruct (step sp k e t0 s1 ws) as [[[s2 os]|]|] eqn:E; cbn [bind] in H; try discriminate. injection H as <- <-. unfold gentle in Hg. cbn [winds results] in *.
    assert (Hos : (forall o, In o os -> converged o = true) /\ moderate (sand s1) os).
    { destruct Hg as [-> | (G1 & G2)]. exfalso. destruct (step_inv _ _ _ _ _ _ _ _ E) as (w & _ & F & _). apply fractions_each in F. apply Forall2_len in F. rewrite reads_length, Hl in F. destruct He as (_ & _ & _ & _ & _ & _ & _ & _ & X & _). cbn in F. lia.
      split. exact G1. apply (gentle_moderate nf k L); assumption. }
    destruct Hos as (Hcv & Hm). destruct (step_balance sp nf k e g He t0 s1 ws s2 os M1 Hl Hw E Hcv Hm) as (B1 & B2 & B3 & B4).
    pose proof (equal_kept L s1 s2 B2 M2) as HL2. pose proof (fits_kept m s1 s2 B2 M3) as Hf2. destruct (reshaped_sound nf k m (reshape d) s2 L B1 HL2 Hf2) as (R1 & R2 & R3).
    split. exact R1. split. exact R2. split. exact R3. rewrite (reshaped_content k e g (reshape d) s2) by (destruct B1 as (_ & _ & B1 & _); exact B1).
    change (sand_lifted_day k e g {| winds := ws; results := os; lifted := fun j => reshape d (height (sand s2)) j - height (sand s2) j |}) with (sand_lifted_day k e g {| winds := []; results := []; lifted := fun j => reshape d (height (sand s2)) j - height (sand s2) j |}).
    assert (W : windy_days [{| winds := ws; results := os; lifted := fun j => reshape d (height (sand s2)) j - height (sand s2) j |}] = 1%nat).
    { unfold windy_days. cbn [filter results]. destruct os; [|reflexivity]. destruct He as (_ & _ & _ & _ & _ & _ & _ & _ & X & _). cbn in B3. lia. }
    rewrite W. change (inject_Z (Z.of_nat 1)) with 1. unfold tolerance. lra.
  - injection H as <- <-. cbn [winds results] in *. destruct (reshaped_sound nf k m (reshape d) s1 L M1 M2 M3) as (R1 & R2 & R3). split. exact R1. split. exact R2. split. exact R3.
    change (stirred nf m (heights d) (sand s)) with (sand s1).
    rewrite (reshaped_content k e g (reshape d) s1) by (destruct M1 as (_ & _ & B1 & _); exact B1). unfold blown_step. cbn [map2 qsum fold_right]. change (inject_Z (Z.of_nat (windy_days _))) with 0. lra.
Qed.
Lemma windy_cons y t : inject_Z (Z.of_nat (windy_days (y :: t))) == inject_Z (Z.of_nat (windy_days [y])) + inject_Z (Z.of_nat (windy_days t)).
Proof. rewrite <- inject_Z_plus, <- Nat2Z.inj_add. unfold windy_days. cbn [filter]. destruct (results y); cbn [length Nat.add]; reflexivity. Qed.

(** * Runs *)
Lemma days_balance sp nf k e m g L climate : sound_setup nf k e -> fair_climate sp nf k g climate -> forall n t0 past s s' t, sound_state nf k s -> equal_layers L s -> fits m s ->
  days sp k e m climate n t0 past s = Ok (Some (s', t)) -> (forall y, In y t -> gentle k L y) ->
  length t = n /\ sound_state nf k s' /\ equal_layers L s' /\
  0 <= content k e g s' - content k e g s - sand_blown k t - sand_lifted k e g t <= inject_Z (Z.of_nat (windy_days t)) * (inject_Z (Z.of_nat nf) * (max_error k * over_inside k g)).
Proof.
  intros He Hcl. induction n as [|n IH]; intros t0 past s s' t Hs HL Hf H Hg; cbn [days] in H.
  - injection H as <- <-. split. reflexivity. split. exact Hs. split. exact HL. unfold sand_blown, sand_lifted, windy_days. cbn [map qsum fold_right filter length]. change (inject_Z (Z.of_nat 0)) with 0. lra.
  - destruct (whole_step sp k e m t0 s (climate (s :: past))) as [[[s1 y]|]|] eqn:E; cbn [bind] in H; try discriminate.
    destruct (days sp k e m climate n false (s :: past) s1) as [[[s2 t']|]|] eqn:E1; cbn [bind] in H; try discriminate. injection H as <- <-.
    destruct (whole_step_balance sp nf k e m g L t0 s _ s1 y He Hs HL Hf (Hcl (s :: past)) E (Hg y (or_introl eq_refl))) as (B1 & B2 & B3 & B4).
    destruct (IH false (s :: past) s1 s2 t' B1 B2 B3 E1 ltac:(intros z Hz; apply Hg; right; exact Hz)) as (C1 & C2 & C3 & C4).
    split. cbn [length]. lia. split. exact C2. split. exact C3. rewrite windy_cons. unfold sand_blown, sand_lifted, tolerance in *. cbn [map qsum fold_right]. fold (qsum (map (fun d => blown_step k (winds d) (results d)) t')) (qsum (map (sand_lifted_day k e g) t')). lra.
Qed.
Lemma whole_step_exists sp nf k e m g M L t0 s d : sound_setup nf k e -> prescribed_ends k -> 0 <= M -> inject_Z (Z.of_nat nf) * (M * dt k / T k) < L -> sound_state nf k s -> equal_layers L s -> limited_air k M s -> fits m s ->
  (forall ws, blow d = Some ws -> length ws = nf /\ forall w, In w ws -> fair_wind sp k g w) -> (forall ws, blow d = Some ws -> forall w, In w ws -> limited_wind k M w) ->
  exists n0 s' y, (forall n, (n0 <= n)%nat -> whole_step sp (with_iterations k n) e m t0 s d = Ok (Some (s', y))) /\ gentle k L y /\ limited_air k M s'.
Proof.
  intros He Hp HM Hb Hs HL Ha Hf Hd Hlim. assert (Hnf : length (grains e) = nf) by (destruct He as (_ & _ & _ & _ & _ & _ & E & _); exact E).
  destruct (stirred_sound nf k m (heights d) s L Hs HL Hf) as (M1 & M2 & M3 & _). unfold whole_step. rewrite Hnf. set (s1 := with_sand s (stirred nf m (heights d) (sand s))) in *.
  assert (Ha1 : limited_air k M s1) by exact Ha. destruct (blow d) as [ws|] eqn:Eb.
  - destruct (Hd ws eq_refl) as (Hl & Hw). destruct (step_exists sp nf k e g t0 s1 ws He M1 Hl Hw) as (n1 & s2 & os & Hc & Hn1). pose proof (Hn1 n1 (Nat.le_refl n1)) as E.
    change (sound_setup nf (with_iterations k n1) e) in He. change (sound_state nf (with_iterations k n1) s1) in M1.
    pose proof (outcomes_limited sp nf (with_iterations k n1) e g M t0 s1 ws s2 os He Hp HM M1 Hl Hw (Hlim ws eq_refl) Ha1 E Hc) as (Lo & Hout).
    pose proof (limited_moderate nf (with_iterations k n1) e M L s1 os He M1 M2 Hb Lo Hout) as Hm.
    exists n1. eexists. eexists. split. intros n Hn. rewrite (Hn1 n Hn). cbn [bind]. reflexivity. split.
    + right. cbn [results]. split. exact Hc. apply (moderate_gentle nf (with_iterations k n1) L s1 os M1 M2 Hm).
    + intros a Hin x Hx. cbn [with_sand air] in Hin. destruct (step_inv _ _ _ _ _ _ _ _ E) as (w & _ & _ & A & _). rewrite A in Hin. apply in_map_iff in Hin. destruct Hin as (o & <- & Ho). apply In_nth_error in Ho. destruct Ho as (i & Hi). apply (Hout i o Hi x Hx).
  - exists 0%nat. eexists. eexists. split. intros n _. reflexivity. split. left. reflexivity. exact Ha1.
Qed.
Lemma days_exist sp nf k e m g M L climate : sound_setup nf k e -> prescribed_ends k -> 0 <= M -> inject_Z (Z.of_nat nf) * (M * dt k / T k) < L -> fair_climate sp nf k g climate -> limited_climate k M climate ->
  forall n t0 past s, sound_state nf k s -> equal_layers L s -> limited_air k M s -> fits m s ->
  exists n0 s' t, (forall i, (n0 <= i)%nat -> days sp (with_iterations k i) e m climate n t0 past s = Ok (Some (s', t))) /\ (forall y, In y t -> gentle k L y) /\ limited_air k M s'.
Proof.
  intros He Hp HM Hb Hfair Hlim. induction n as [|n IH]; intros t0 past s Hs HL Ha Hf.
  - exists 0%nat, s, []. split. reflexivity. split. intros y []. exact Ha.
  - destruct (whole_step_exists sp nf k e m g M L t0 s (climate (s :: past)) He Hp HM Hb Hs HL Ha Hf (Hfair (s :: past)) (Hlim (s :: past))) as (n1 & s1 & y & Hn1 & Hg & Ha1).
    pose proof (Hn1 n1 (Nat.le_refl n1)) as E. destruct (whole_step_balance sp nf (with_iterations k n1) e m g L t0 s _ s1 y He Hs HL Hf (Hfair (s :: past)) E Hg) as (B1 & B2 & B3 & _).
    destruct (IH false (s :: past) s1 B1 B2 Ha1 B3) as (n2 & s2 & t & Hn2 & Hgt & Ha2).
    exists (Nat.max n1 n2), s2, (y :: t). split; [|split; [|exact Ha2]].
    + intros i Hi. cbn [days]. rewrite (Hn1 i ltac:(lia)). cbn [bind]. rewrite (Hn2 i ltac:(lia)). reflexivity.
    + intros z [<- | Hz]. exact Hg. apply Hgt, Hz.
Qed.
Lemma days_whole sp nf k e m g M L climate n t0 past s : sound_setup nf k e -> prescribed_ends k -> 0 <= M -> inject_Z (Z.of_nat nf) * (M * dt k / T k) < L -> fair_climate sp nf k g climate -> limited_climate k M climate ->
  sound_state nf k s -> equal_layers L s -> limited_air k M s -> fits m s ->
  exists n0 s' t, (forall i, (n0 <= i)%nat -> days sp (with_iterations k i) e m climate n t0 past s = Ok (Some (s', t))) /\ length t = n /\ sound_state nf k s' /\ equal_layers L s' /\ limited_air k M s' /\
    0 <= content k e g s' - content k e g s - sand_blown k t - sand_lifted k e g t <= inject_Z (Z.of_nat (windy_days t)) * (inject_Z (Z.of_nat nf) * (max_error k * over_inside k g)).
Proof.
  intros He Hp HM Hb Hfair Hlim Hs HL Ha Hf. destruct (days_exist sp nf k e m g M L climate He Hp HM Hb Hfair Hlim n t0 past s Hs HL Ha Hf) as (n0 & s' & t & Hn & Hg & Ha').
  exists n0, s', t. split. exact Hn. destruct (days_balance sp nf (with_iterations k n0) e m g L climate He Hfair n t0 past s s' t Hs HL Hf (Hn n0 (Nat.le_refl n0)) Hg) as (A & B & C & D). split. exact A. split. exact B. split. exact C. split. exact Ha'. exact D.
Qed.
(** Without wind the grains stay where they are: waves only mix them in their cell. *)
Lemma calm_grains sp nf k e m L t0 s d : length (grains e) = nf -> sound_state nf k s -> equal_layers L s -> fits m s -> blow d = None -> (forall z j, reshape d z j = z j) ->
  exists s' y, whole_step sp k e m t0 s d = Ok (Some (s', y)) /\ air s' = air s /\ same_grains (sand s) (sand s') /\ sound_state nf k s' /\ equal_layers L s'.
Proof.
  intros Hnf Hs HL Hf Hb Hr. destruct (stirred_sound nf k m (heights d) s L Hs HL Hf) as (M1 & M2 & M3 & M4). unfold whole_step. rewrite Hb, Hnf. set (s1 := with_sand s (stirred nf m (heights d) (sand s))) in *.
  destruct (reshaped_sound nf k m (reshape d) s1 L M1 M2 M3) as (R1 & R2 & _). eexists. eexists. split. reflexivity. split. reflexivity. split; [|split; assumption].
  cbn [with_sand sand]. assert (Z : reshaped (reshape d) (sand s1) = sand s1); [|change (sand (with_sand s (stirred nf m (heights d) (sand s)))) with (sand s1); rewrite Z; exact M4].
  apply nth_error_ext. intros j. rewrite reshaped_nth. destruct (nth_error (sand s1) j) as [c|] eqn:E; [|reflexivity]. rewrite Hr. unfold height. rewrite E. destruct c. reflexivity.
Qed.

(** * Waves *)
Lemma mixed_hit f mean ix m i l : nth_error m i = Some l -> nth i ix false = true -> nth i (mixed f mean ix m) [] = blend f mean l.
Proof.
  revert ix i. induction m as [|x m IH]; intros [|b ix] [|i] Hm Hi; cbn in Hm, Hi; try discriminate. injection Hm as <-. subst b. reflexivity. unfold mixed in *. cbn [map2 nth]. apply IH; assumption.
Qed.
Lemma with_top_hit ix i : nth i ix false = true -> nth i (with_top true ix) false = true.
Proof. destruct ix as [|b ix]; cbn; [destruct i; intros H; exact H|]. destruct i; [reflexivity | intros H; exact H]. Qed.
Lemma mixing_law nf fac cells j c i a b : nth_error cells j = Some c -> mixable nf c -> 0 < fac * hsmix c -> (a < length (thlyr c))%nat -> (b < length (thlyr c))%nat -> bottom a (thlyr c) <= fac * hsmix c -> bottom b (thlyr c) <= fac * hsmix c ->
  exists m', nth_error (mixtoplayer true nf fac cells) j = Some m' /\ contrast m' i a b == (1 - qmin 1 (qsum (thlyr c) / (fac * hsmix c))) * contrast (mixmass c) i a b.
Proof.
  intros Hc (L & S & N & Ht) H0 Ha Hb Ba Bb. exists (mix_cell (any_disturbed fac cells) nf fac c). split. unfold mixtoplayer. now apply map_nth_error.
  assert (Da : nth a (disturbed (dod fac c) (thlyr c)) false = true) by (apply disturbed_nth; [exact Ha | split; assumption]). assert (Db : nth b (disturbed (dod fac c) (thlyr c)) false = true) by (apply disturbed_nth; [exact Hb | split; assumption]).
  assert (Hany : any_disturbed fac cells = true). { apply (existsb_nth _ cells j c Hc). apply existsb_exists. exists true. split; [|reflexivity]. rewrite <- Da. apply nth_In. now rewrite disturbed_length. }
  rewrite Hany, mix_cell_eq. set (ix := with_top true (disturbed (dod fac c) (thlyr c))). set (f := mixfraction (dod fac c) (thlyr c)).
  assert (Ss : shaped nf (selected ix (mixmass c))) by (intros x Hx; apply S; exact (selected_in _ _ _ Hx)). pose proof (layer_mean_length nf _ Ss) as Lm. revert Lm. generalize (layer_mean nf (selected ix (mixmass c))). intros mean Lm.
  destruct (nth_error (mixmass c) a) as [la|] eqn:Ea; [|apply nth_error_None in Ea; lia]. destruct (nth_error (mixmass c) b) as [lb|] eqn:Eb; [|apply nth_error_None in Eb; lia].
  unfold contrast. rewrite (mixed_hit f mean ix (mixmass c) a la Ea (with_top_hit _ _ Da)), (mixed_hit f mean ix (mixmass c) b lb Eb (with_top_hit _ _ Db)). rewrite (nth_error_nth _ _ [] Ea), (nth_error_nth _ _ [] Eb).
  rewrite !nth_blend by (rewrite Lm; symmetry; apply S; eapply nth_error_In; eassumption).
  assert (Ef : f = qmin 1 (qsum (thlyr c) / (fac * hsmix c))). { unfold f, mixfraction. fold (dod fac c) in *. destruct (Qltb_spec 0 (dod fac c)); [reflexivity | lra]. }
  rewrite <- Ef. generalize f (nth i mean 0) (nth i la 0) (nth i lb 0). intros. ring.
Qed.
Lemma mixing_masses nf fac cells j c a b : nth_error cells j = Some c -> mixable nf c -> 0 < fac * hsmix c -> (a < length (thlyr c))%nat -> (b < length (thlyr c))%nat -> bottom a (thlyr c) <= fac * hsmix c -> bottom b (thlyr c) <= fac * hsmix c ->
  exists m', nth_error (mixtoplayer true nf fac cells) j = Some m' /\ qsum (nth a m' []) - qsum (nth b m' []) == (1 - qmin 1 (qsum (thlyr c) / (fac * hsmix c))) * (qsum (nth a (mixmass c) []) - qsum (nth b (mixmass c) [])).
Proof.
  intros Hc (L & S & N & Ht) H0 Ha Hb Ba Bb. exists (mix_cell (any_disturbed fac cells) nf fac c). split. unfold mixtoplayer. now apply map_nth_error.
  assert (Da : nth a (disturbed (dod fac c) (thlyr c)) false = true) by (apply disturbed_nth; [exact Ha | split; assumption]). assert (Db : nth b (disturbed (dod fac c) (thlyr c)) false = true) by (apply disturbed_nth; [exact Hb | split; assumption]).
  assert (Hany : any_disturbed fac cells = true). { apply (existsb_nth _ cells j c Hc). apply existsb_exists. exists true. split; [|reflexivity]. rewrite <- Da. apply nth_In. now rewrite disturbed_length. }
  rewrite Hany, mix_cell_eq. set (ix := with_top true (disturbed (dod fac c) (thlyr c))). set (f := mixfraction (dod fac c) (thlyr c)).
  assert (Ss : shaped nf (selected ix (mixmass c))) by (intros x Hx; apply S; exact (selected_in _ _ _ Hx)). pose proof (layer_mean_length nf _ Ss) as Lm. revert Lm. generalize (layer_mean nf (selected ix (mixmass c))). intros mean Lm.
  destruct (nth_error (mixmass c) a) as [la|] eqn:Ea; [|apply nth_error_None in Ea; lia]. destruct (nth_error (mixmass c) b) as [lb|] eqn:Eb; [|apply nth_error_None in Eb; lia].
  rewrite (mixed_hit f mean ix (mixmass c) a la Ea (with_top_hit _ _ Da)), (mixed_hit f mean ix (mixmass c) b lb Eb (with_top_hit _ _ Db)). rewrite (nth_error_nth _ _ [] Ea), (nth_error_nth _ _ [] Eb).
  rewrite !qsum_blend by (rewrite Lm; symmetry; apply S; eapply nth_error_In; eassumption).
  assert (Ef : f = qmin 1 (qsum (thlyr c) / (fac * hsmix c))). { unfold f, mixfraction. fold (dod fac c) in *. destruct (Qltb_spec 0 (dod fac c)); [reflexivity | lra]. }
  rewrite <- Ef. generalize f (qsum mean) (qsum la) (qsum lb). intros. ring.
Qed.
