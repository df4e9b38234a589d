(** More lemmas about groundwater: the shoreline, exceptions, equilibrium, transects, and the runup overheight. *)
From Coq Require Import QArith ZArith Lia Lqa List Bool Arith Setoid.
From Verif Require Import Base Num Utils_Model Utils_Proofs Hydro_Model Hydro_Spec Hydro_Proofs.
Import ListNotations.
Open Scope Q_scope.

Lemma map2_min {A B C} (f : A -> B -> C) l m : length (map2 f l m) = Nat.min (length l) (length m).
Proof. revert m. induction l as [|x l IH]; intros [|y m]; cbn; auto. Qed.

(** * The shoreline *)
Lemma first_true_some l i : nth_error l i = Some true -> (forall j, (j < i)%nat -> nth_error l j = Some false) -> first_true l = Some i.
Proof.
  revert i. induction l as [|b l IH]; intros [|i] H Hj; try discriminate H.
  - cbn in H. injection H as ->. reflexivity.
  - pose proof (Hj O ltac:(lia)) as H0. cbn in H0. injection H0 as ->. cbn [first_true]. rewrite (IH i). reflexivity. exact H. intros j Hji. apply (Hj (S j)). lia.
Qed.
Lemma first_true_none l : (forall j, (j < length l)%nat -> nth_error l j = Some false) -> first_true l = None.
Proof.
  induction l as [|b l IH]; intros H. reflexivity. pose proof (H O ltac:(cbn; lia)) as H0. cbn in H0. injection H0 as ->. cbn [first_true]. rewrite IH. reflexivity. intros j Hj. apply (H (S j)). cbn; lia.
Qed.
Lemma map2_nth_error {A B C} (f : A -> B -> C) l m i a b : nth_error l i = Some a -> nth_error m i = Some b -> nth_error (map2 f l m) i = Some (f a b).
Proof. revert m i. induction l as [|x l IH]; intros [|y m] [|i] H1 H2; try discriminate. injection H1 as ->. injection H2 as ->. reflexivity. cbn [nth_error]. apply IH; assumption. Qed.
Lemma both_at {A B} (l : list A) (m : list B) i : length l = length m -> (i < length l)%nat -> exists a b, nth_error l i = Some a /\ nth_error m i = Some b.
Proof. intros H Hi. destruct (nth_error_lt l i Hi) as (a & Ea). destruct (nth_error_lt m i) as (b & Eb). lia. eauto. Qed.
Lemma shore_at n r l i : row_shaped n r -> levels_shaped n l -> shoreline_at i r l -> shore (gzb r) (dswl l) = Z.of_nat i.
Proof.
  intros (_ & _ & R3 & _) (L1 & _) (Hw & z & s & Ez & Es & Hzs). unfold shore, argmax. rewrite (first_true_some _ (S i)). lia.
  - rewrite (map2_nth_error _ _ _ _ _ _ Ez Es). destruct (Qltb_spec s z); [reflexivity|lra].
  - intros j Hj. assert (Hi : (S i < n)%nat) by (rewrite <- R3; apply nth_error_Some; congruence). destruct (both_at (gzb r) (dswl l) j) as (zj & sj & E1 & E2). congruence. lia.
    rewrite (map2_nth_error _ _ _ _ _ _ E1 E2). destruct (Qltb_spec sj zj); [|reflexivity]. specialize (Hw j zj sj ltac:(lia) E1 E2). lra.
Qed.
Lemma shore_submerged n r l : row_shaped n r -> levels_shaped n l -> submerged r l -> shore (gzb r) (dswl l) = (-1)%Z.
Proof.
  intros (_ & _ & R3 & _) (L1 & _) H. unfold shore, argmax. rewrite first_true_none. reflexivity. intros j Hj. rewrite map2_min in Hj. destruct (both_at (gzb r) (dswl l) j) as (z & s & E1 & E2). congruence. lia.
  rewrite (map2_nth_error _ _ _ _ _ _ E1 E2). destruct (Qltb_spec s z); [|reflexivity]. specialize (H j z s E1 E2). lra.
Qed.
Lemma shore_dry0 r l : dry_at 0 r l -> shore (gzb r) (dswl l) = (-1)%Z.
Proof. intros (z & s & E1 & E2 & H). unfold shore, argmax. destruct (gzb r) as [|z0 zs0]; [discriminate|]. destruct (dswl l) as [|s0 ss0]; [discriminate|]. injection E1 as ->. injection E2 as ->. cbn. destruct (Qltb_spec s z). reflexivity. lra. Qed.
Lemma shore_dry1 r l : dry_at 1 r l -> (shore (gzb r) (dswl l) <= 0)%Z.
Proof.
  intros (z & s & E1 & E2 & H). unfold shore, argmax. destruct (gzb r) as [|z0 [|z1 zs0]]; try discriminate. destruct (dswl l) as [|s0 [|s1 ss0]]; try discriminate. injection E1 as ->. injection E2 as ->. cbn.
  destruct (Qltb_spec s z); [|lra]. destruct (Qltb s0 z0); cbn; lia.
Qed.
Lemma shore_ge_m1 z s : (-1 <= shore z s)%Z.
Proof. unfold shore, argmax. destruct (first_true _); lia. Qed.

(** * Exceptions *)
Definition only_value {A} (r : result A) : Prop := match r with Raise e => e = ValueError | Ok _ => True end.
Lemma only_bind {A B} (m : result A) (f : A -> result B) : only_value m -> (forall a, only_value (f a)) -> only_value (bind m f).
Proof. destruct m; cbn; auto. Qed.
Lemma only_put a b vs l : only_value (put_slice a b vs l).
Proof. unfold put_slice. destruct (Nat.eqb _ _); cbn; auto. Qed.
Lemma only_both f l m : only_value (both f l m).
Proof. unfold both. destruct (Nat.eqb _ _); cbn; auto. Qed.
Lemma only_change g s ds w : only_value (change g s ds w).
Proof. unfold change. destruct (Z.ltb _ _); [|exact I]. repeat (apply only_bind; [apply only_both || apply only_put | intro]). apply only_put. Qed.
Lemma only_boussinesq g s o d ds z w : only_value (boussinesq g s o d ds z w).
Proof.
  unfold boussinesq. apply only_bind. unfold seep. destruct (seepage g); [|exact I]. destruct (Z.ltb _ _); [apply only_put|exact I]. intro. apply only_bind. apply only_change. intro. exact I.
Qed.
Lemma only_substep g dtgw o row lv w : only_value (substep g dtgw o row lv w).
Proof.
  unfold substep. repeat (apply only_bind; [apply only_boussinesq | intro]). apply only_bind; [|intro; exact I]. destruct (waves g); [|exact I]. apply only_bind; [|intro; exact I].
  unfold overheight. repeat (apply only_bind; [apply only_put | intro]). exact I.
Qed.
Lemma both_no f l m : length l <> length m -> both f l m = Raise ValueError.
Proof. intros H. unfold both. destruct (Nat.eqb_spec (length l) (length m)); [contradiction|reflexivity]. Qed.
Lemma slice_full_len a b n (l : list Q) : length l = n -> length (slice a b l) = Nat.min (bound_to n b - bound_to n a) (n - bound_to n a).
Proof. intros <-. apply slice_len. Qed.
Lemma change_raises g s ds w : (4 <= length w)%nat -> (-1 <= s <= 0)%Z -> change g s ds w = Raise ValueError.
Proof.
  intros Hn Hs. unfold change. destruct (Z.ltb_spec s (Z.of_nat (length w) - 3)); [|lia]. set (n := length w) in *.
  assert (s = -1 \/ s = 0)%Z as [-> | ->] by lia.
  - rewrite (both_no (fun u v => u - 2 * v)). reflexivity. rewrite !slice_len. fold n. unfold bound_to. cbn. lia.
  - rewrite (both_ok (fun u v => u - 2 * v)). cbn [bind].
    + rewrite (both_no Qplus). reflexivity. rewrite map2_min, !slice_len. fold n. unfold bound_to. cbn. lia.
    + rewrite !slice_len. fold n. unfold bound_to. cbn. lia.
Qed.
Lemma substep_raises g dtgw o row lv w n : (4 <= n)%nat -> row_shaped n row -> length w = n -> (shore (gzb row) (dswl lv) <= 0)%Z -> substep g dtgw o row lv w = Raise ValueError.
Proof.
  intros Hn (R1 & R2 & R3 & R4) Hw Hs. unfold substep. set (s := shore _ _) in *. unfold boussinesq at 1. destruct (seep_ok g s (gzb row) (edges g s o (dswl lv) w)) as (w' & E & L). rewrite edges_length. congruence.
  rewrite E. cbn [bind]. rewrite edges_length in L. rewrite change_raises. reflexivity. lia. split; [apply shore_ge_m1|exact Hs].
Qed.
Lemma over_rows_raises f os rows lvs gws i o row lv w : (forall o r l x, only_value (f o r l x)) -> nth_error os i = Some o -> nth_error rows i = Some row -> nth_error lvs i = Some lv -> nth_error gws i = Some w ->
  f o row lv w = Raise ValueError -> over_rows f os rows lvs gws = Raise ValueError.
Proof.
  intros Hf. revert os rows lvs gws. induction i as [|i IH]; intros [|o0 os] [|r0 rows] [|l0 lvs] [|w0 gws] E1 E2 E3 E4 Er; try discriminate.
  - injection E1 as ->. injection E2 as ->. injection E3 as ->. injection E4 as ->. cbn [over_rows]. rewrite Er. reflexivity.
  - cbn [over_rows]. pose proof (Hf o0 r0 l0 w0) as H0. destruct (f o0 r0 l0 w0); cbn [bind]. rewrite (IH os rows lvs gws); auto. cbn in H0. subst. reflexivity.
Qed.
Lemma groundwater_raises g dt tfac rows lv gw prev n k i row l m : (4 <= n)%nat -> rows_shaped n rows -> length rows = k -> all_levels_shaped n k lv -> field_shaped n k gw -> gw_steps dt tfac = Ok (S m) ->
  nth_error rows i = Some row -> nth_error (lv O) i = Some l -> (shore (gzb row) (dswl l) <= 0)%Z -> groundwater g dt tfac rows lv gw prev = Raise ValueError.
Proof.
  intros Hn Hr Hk Hl (Hg1 & Hg2) Hst Er El Hs. unfold groundwater. rewrite Hst. cbn [bind]. unfold substeps1. destruct (Hl O) as (L1 & L2).
  set (os := previous _). assert (Hi : (i < k)%nat) by (rewrite <- Hk; apply nth_error_Some; congruence).
  assert (Lo : length os = k). { unfold os. rewrite previous_length. rewrite map2_length; congruence. intros E. apply (f_equal (@length Z)) in E. rewrite map2_length in E by congruence. cbn in E. lia. }
  destruct (nth_error_lt os i) as (o & Eo). lia. destruct (nth_error_lt gw i) as (w & Ew). lia.
  rewrite (over_rows_raises _ os rows (lv O) gw i o row l w); auto. intros. apply only_substep. apply (substep_raises g _ o row l w n); auto. exact (Forall_nth_error _ _ _ _ Hr Er). exact (Forall_nth_error _ _ _ _ Hg2 Ew).
Qed.
Lemma over_rows_ok f os rows lvs gws : (forall i o row lv w, nth_error os i = Some o -> nth_error rows i = Some row -> nth_error lvs i = Some lv -> nth_error gws i = Some w -> exists r, f o row lv w = Ok r) ->
  exists r, over_rows f os rows lvs gws = Ok r.
Proof.
  revert rows lvs gws. induction os as [|o os IH]; intros [|row rows] [|lv lvs] [|w gws] H; cbn [over_rows]; eauto.
  destruct (H O o row lv w eq_refl eq_refl eq_refl eq_refl) as (r & E). rewrite E. cbn [bind]. destruct (IH rows lvs gws) as (r' & E'). intros i. apply (H (S i)). rewrite E'. cbn [bind]. eauto.
Qed.
Lemma substeps1_ok g dtgw rows lvs gws n k : rows_shaped n rows -> length rows = k -> length lvs = k -> Forall (levels_shaped n) lvs -> field_shaped n k gws ->
  (forall i r l, nth_error rows i = Some r -> nth_error lvs i = Some l -> exists j, (1 <= j)%nat /\ shoreline_at j r l) -> exists r, substeps1 g dtgw rows lvs gws = Ok r.
Proof.
  intros Hr Hk Hl1 Hl2 (Hg1 & Hg2) Hs. unfold substeps1. apply over_rows_ok. intros i o row lv w _ Er El Ew. destruct (Hs i row lv Er El) as (j & Hj & Hsh).
  pose proof (Forall_nth_error _ _ _ _ Hr Er) as S1. pose proof (Forall_nth_error _ _ _ _ Hl2 El) as S2. destruct (substep_ok g dtgw o row lv w j n S1 S2 (Forall_nth_error _ _ _ _ Hg2 Ew) Hj (shore_at _ _ _ _ S1 S2 Hsh)) as (m & r & E). eauto.
Qed.
Lemma substeps_ok g dtgw rows lv n k m : rows_shaped n rows -> length rows = k -> all_levels_shaped n k lv -> forall i gws, field_shaped n k gws -> shorelines_inside rows lv (i + m) ->
  exists r, substeps g dtgw rows lv i m gws = Ok r.
Proof.
  intros Hr Hk Hl. induction m as [|m IH]; intros i gws Hg Hs. cbn. eauto. cbn [substeps]. destruct (Hl i) as (L1 & L2). destruct (substeps1_ok g dtgw rows (lv i) gws n k Hr Hk L1 L2 Hg) as ([ms rs] & E).
  { intros q r l Er El. apply (Hs i q r l); auto. lia. }
  rewrite E. cbn [bind snd]. apply IH. apply (substeps1_shape g dtgw rows (lv i) gws ms rs n k); auto. rewrite Nat.add_succ_r in Hs. exact Hs.
Qed.
Lemma groundwater_ok g dt tfac rows lv gw prev n k m : rows_shaped n rows -> length rows = k -> all_levels_shaped n k lv -> field_shaped n k gw -> gw_steps dt tfac = Ok m -> shorelines_inside rows lv m ->
  exists wet gw' prev', groundwater g dt tfac rows lv gw prev = Ok (wet, gw', prev').
Proof.
  intros Hr Hk Hl Hg Hst Hs. unfold groundwater. rewrite Hst. cbn [bind]. destruct m as [|m]; [eauto|]. destruct (substeps_ok g (inject_Z (gw_timestep dt tfac)) rows lv n k (S m) Hr Hk Hl O gw Hg Hs) as (r & E).
  cbn [substeps] in E. destruct (substeps1 g (inject_Z (gw_timestep dt tfac)) rows (lv O) gw) as [x|]; cbn [bind] in *; [|discriminate]. rewrite E. cbn [bind]. eauto.
Qed.

(** * Equilibrium *)
Lemma level_map2 {A B} (f : A -> B -> Q) h l m : (forall i a b, nth_error l i = Some a -> nth_error m i = Some b -> f a b == h) -> level h (map2 f l m).
Proof. intros H x Hx. apply In_nth_error in Hx. destruct Hx as (i & E). apply nth_error_map2 in E. destruct E as (a & b & E1 & E2 & ->). eapply H; eassumption. Qed.
Lemma level_nth_error h l i x : level h l -> nth_error l i = Some x -> x == h.
Proof. intros H E. apply H. eapply nth_error_In, E. Qed.
Lemma level_nth h l i : level h l -> (i < length l)%nat -> nth i l 0 == h.
Proof. intros H Hi. apply H, nth_In, Hi. Qed.
Lemma level_put h z v l : level h l -> v == h -> level h (put z v l).
Proof.
  intros H Hv. unfold put. generalize (position (length l) z). induction l as [|x l IH]; intros i y Hy. destruct i; destruct Hy.
  destruct i as [|i]; cbn in Hy. destruct Hy as [<-|Hy]. exact Hv. apply H. right. exact Hy. destruct Hy as [<-|Hy]. apply H. left. reflexivity. apply (IH ltac:(intros u Hu; apply H; right; exact Hu) i). exact Hy.
Qed.
Lemma position_lt n z : (1 <= n)%nat -> (- Z.of_nat n <= z < Z.of_nat n)%Z -> (position n z < n)%nat.
Proof. intros H Hz. unfold position. destruct (Z.ltb_spec z 0); lia. Qed.
Lemma level_get h z l : level h l -> (1 <= length l)%nat -> (- Z.of_nat (length l) <= z < Z.of_nat (length l))%Z -> get z l == h.
Proof. intros H Hl Hz. unfold get. apply level_nth. exact H. apply position_lt; assumption. Qed.
Lemma shore_lt z s : (1 <= length z)%nat -> (shore z s < Z.of_nat (length z))%Z.
Proof.
  intros H. unfold shore, argmax. destruct (first_true (map2 (fun z s => Qltb s z) z s)) as [i|] eqn:E; [|lia].
  assert (forall l i, first_true l = Some i -> (i < length l)%nat) as Hf. { induction l as [|b l IH]; intros q Hq. discriminate. cbn in Hq. destruct b. injection Hq as <-. cbn; lia. destruct (first_true l); [|discriminate]. injection Hq as <-. cbn. specialize (IH n eq_refl). lia. }
  apply Hf in E. rewrite map2_min in E. lia.
Qed.
Lemma level_edges g h s o d w : level h w -> level h d -> (4 <= length w)%nat -> length d = length w -> (-1 <= s < Z.of_nat (length w))%Z -> (-1 <= o < Z.of_nat (length w))%Z -> (static g = true -> GW_stat g == h) -> level h (edges g s o d w).
Proof.
  intros Hw Hd Hn Ld Hs Ho Hst. unfold edges. assert (L2 : level h (put o (get o d) (put s (get s d) w))) by (repeat apply level_put; [exact Hw| |]; apply level_get; auto; lia).
  assert (Hv : (if static g then GW_stat g else get (-4) (put o (get o d) (put s (get s d) w))) == h). { destruct (static g). auto. apply level_get. exact L2. rewrite !put_length. lia. rewrite !put_length. lia. }
  cbv zeta. apply level_put; [apply level_put; [apply level_put; [exact L2|exact Hv]|exact Hv]|exact Hv].
Qed.
Lemma level_change g h e s ds w r : level h w -> level e ds -> ~ e == 0 -> (1 <= s)%nat -> length ds = length w -> change g (Z.of_nat s) ds w = Ok r -> level 0 r.
Proof.
  intros Hw Hd He Hs Ld H. destruct (Nat.lt_ge_cases (s + 3) (length w)) as [Hl|Hl].
  - destruct (change_spec g s ds w Hs Hl Ld) as (r' & E & L & N). rewrite E in H. apply Ok_inj in H. subst r'. intros x Hx. apply (In_nth _ _ 0) in Hx. destruct Hx as (j & _ & <-). rewrite N.
    destruct (Nat.leb_spec (s + 1) j), (Nat.ltb_spec j (length w - 3)); cbn [andb]; try reflexivity. unfold rate, term.
    replace (j + 1 - 1)%nat with j by lia. replace (j - 1 + 1)%nat with j by lia.
    rewrite !(level_nth h w) by (auto; lia). rewrite !(level_nth e ds) by (auto; lia).
    setoid_replace (D_gw g * ((h - 2 * h + h) / (e * e)) + (h * (h + h) / e - h * (h + h) / e) / e) with 0. ring. field. exact He.
  - unfold change in H. destruct (Z.ltb_spec (Z.of_nat s) (Z.of_nat (length w) - 3)); [lia|]. apply Ok_inj in H. subst r. intros x Hx. apply repeat_spec in Hx. subst. reflexivity.
Qed.
Lemma level_vplus h k l m : level h l -> level 0 m -> level h (vplus k l m).
Proof. intros Hl Hm. apply level_map2. intros i a b Ea Eb. rewrite Qred_correct. rewrite (level_nth_error _ _ _ _ Hl Ea), (level_nth_error _ _ _ _ Hm Eb). ring. Qed.
Lemma level_vplus0 k l m : level 0 l -> level 0 m -> level 0 (vplus k l m).
Proof. apply level_vplus. Qed.
Lemma level_boussinesq g h e s o d ds z w m r : seepage g = false -> (static g = true -> GW_stat g == h) -> level h w -> level h d -> level e ds -> ~ e == 0 -> (4 <= length w)%nat -> length d = length w -> length ds = length w ->
  (1 <= s < length w)%nat -> (-1 <= o < Z.of_nat (length w))%Z -> boussinesq g (Z.of_nat s) o d ds z w = Ok (m, r) -> level h m /\ level 0 r.
Proof.
  intros Hsp Hst Hw Hd Hds He Hn Ld Lds Hs Ho. unfold boussinesq, seep. rewrite Hsp. cbn [bind]. assert (Hm : level h (edges g (Z.of_nat s) o d w)) by (apply level_edges; auto; lia).
  destruct (change g (Z.of_nat s) ds (edges g (Z.of_nat s) o d w)) eqn:Ec; cbn [bind]; [|discriminate]. intros H. apply Ok_inj in H. injection H as <- <-. split. exact Hm.
  eapply level_change; [exact Hm|exact Hds|exact He| |rewrite edges_length; exact Lds|exact Ec]. lia.
Qed.
(** The conditions under which nothing drives the groundwater. *)
Lemma level_substep g dtgw o row lv w h e n s m r : seepage g = false -> waves g = false -> (static g = true -> GW_stat g == h) -> row_shaped n row -> levels_shaped n lv -> length w = n -> (4 <= n)%nat ->
  (1 <= s)%nat -> shore (gzb row) (dswl lv) = Z.of_nat s -> (-1 <= o < Z.of_nat n)%Z -> Forall unmasked (gmask row) -> level e (gds row) -> ~ e == 0 -> level h (dswl lv) -> level h w ->
  substep g dtgw o row lv w = Ok (m, r) -> level h m /\ level h r.
Proof.
  intros Hsp Hwv Hst Sr Sl Lw Hn Hs Esh Ho Hmask Hds He Hd Hw H. pose proof Sr as (R1 & R2 & R3 & R4). pose proof Sl as (L1 & L2).
  assert (Hsn : (s < n)%nat). { pose proof (shore_lt (gzb row) (dswl lv) ltac:(lia)). lia. }
  unfold substep in H. rewrite Esh, Hwv in H.
  destruct (boussinesq g (Z.of_nat s) o (dswl lv) (gds row) (gzb row) w) as [[m1 r1]|] eqn:E1; cbn [bind fst snd] in H; [|discriminate].
  pose proof (boussinesq_length g _ _ _ _ _ _ _ _ (eq_trans R3 (eq_sym Lw)) E1) as (M1 & K1). apply (level_boussinesq g h e) in E1; auto; try lia. destruct E1 as (W1 & Z1).
  assert (V1 : length (vplus (dtgw / 2) m1 r1) = n) by (rewrite vplus_length; congruence). assert (Q1 : level h (vplus (dtgw / 2) m1 r1)) by (apply level_vplus; assumption).
  destruct (boussinesq g (Z.of_nat s) o (dswl lv) (gds row) (gzb row) (vplus (dtgw / 2) m1 r1)) as [[m2 r2]|] eqn:E2; cbn [bind fst snd] in H; [|discriminate].
  pose proof (boussinesq_length g _ _ _ _ _ _ _ _ (eq_trans R3 (eq_sym V1)) E2) as (M2 & K2). apply (level_boussinesq g h e) in E2; auto; try (rewrite ?V1; lia). destruct E2 as (_ & Z2).
  assert (V2 : length (vplus (dtgw / 2) m1 r2) = n) by (rewrite vplus_length; congruence). assert (Q2 : level h (vplus (dtgw / 2) m1 r2)) by (apply level_vplus; assumption).
  destruct (boussinesq g (Z.of_nat s) o (dswl lv) (gds row) (gzb row) (vplus (dtgw / 2) m1 r2)) as [[m3 r3]|] eqn:E3; cbn [bind fst snd] in H; [|discriminate].
  pose proof (boussinesq_length g _ _ _ _ _ _ _ _ (eq_trans R3 (eq_sym V2)) E3) as (M3 & K3). apply (level_boussinesq g h e) in E3; auto; try (rewrite ?V2; lia). destruct E3 as (_ & Z3).
  assert (V3 : length (vplus dtgw m1 r3) = n) by (rewrite vplus_length; congruence). assert (Q3 : level h (vplus dtgw m1 r3)) by (apply level_vplus; assumption).
  destruct (boussinesq g (Z.of_nat s) o (dswl lv) (gds row) (gzb row) (vplus dtgw m1 r3)) as [[m4 r4]|] eqn:E4; cbn [bind fst snd] in H; [|discriminate].
  apply (level_boussinesq g h e) in E4; auto; try (rewrite ?V3; lia). destruct E4 as (_ & Z4).
  apply Ok_inj in H. injection H as <- <-. split. exact W1.
  assert (Q4 : level h (vplus (dtgw / 6) m1 (vplus 1 (vplus 2 (vplus 2 r1 r2) r3) r4))) by (repeat (apply level_vplus; auto)).
  apply level_map2. intros i a b Ea Eb. apply nth_error_combine_some in Eb. destruct Eb as (Ez & Es). pose proof (level_nth_error _ _ _ _ Hd Es) as Hsb. destruct (Qltb_spec (fst b) (snd b)). exact Hsb.
  apply nth_error_map2 in Ea. destruct Ea as (u & z & Eu & Ez' & ->). rewrite Ez in Ez'. injection Ez' as <-. apply nth_error_map2 in Eu. destruct Eu as (mk & y & Em & Ey & ->).
  pose proof (level_nth_error _ _ _ _ Q4 Ey) as Hy. pose proof (Forall_nth_error _ _ _ _ Hmask Em) as Hu. pose proof (unmasked_value mk y Hu). unfold qmin. destruct (Qle_bool_spec (mask_value mk y) (fst b)); lra.
Qed.
Lemma previous_in l x : In x (previous l) -> x = 0%Z \/ In x l.
Proof.
  unfold previous. destruct l as [|y l]. intros [<-|[]]; auto. assert (y :: l <> []) as Hne by discriminate. destruct (exists_last Hne) as (l' & z & E). rewrite E, last_last, removelast_last.
  intros [<-|H]; right; apply in_or_app; auto. right. left. reflexivity.
Qed.
Lemma over_rows_prop (P : list Q -> Prop) f os rows lvs gws ms rs : over_rows f os rows lvs gws = Ok (ms, rs) ->
  (forall i o row lv w m r, nth_error os i = Some o -> nth_error rows i = Some row -> nth_error lvs i = Some lv -> nth_error gws i = Some w -> f o row lv w = Ok (m, r) -> P m /\ P r) -> Forall P ms /\ Forall P rs.
Proof.
  intros H Hp. apply over_rows_spec in H. destruct H as (L1 & L2 & H).
  assert (HF : forall i m r, nth_error ms i = Some m -> nth_error rs i = Some r -> P m /\ P r) by (intros i m r E1 E2; destruct (H i m r E1 E2) as (o & row & lv & w & ? & ? & ? & ? & ?); eauto).
  split; apply Forall_by_nth; intros i x Ex.
  - destruct (nth_error_lt rs i) as (r & Er). rewrite <- L2. apply nth_error_Some. congruence. apply (HF i x r Ex Er).
  - destruct (nth_error_lt ms i) as (m & Em). rewrite L2. apply nth_error_Some. congruence. apply (HF i m x Em Ex).
Qed.
Lemma level_substeps1 g dtgw rows lvs gws h e n k ms rs : seepage g = false -> waves g = false -> (static g = true -> GW_stat g == h) -> (4 <= n)%nat -> rows_shaped n rows -> length rows = k -> length lvs = k -> Forall (levels_shaped n) lvs -> field_shaped n k gws ->
  Forall (fun r => Forall unmasked (gmask r) /\ level e (gds r)) rows -> ~ e == 0 -> Forall (fun l => level h (dswl l)) lvs -> Forall (level h) gws ->
  (forall i r l, nth_error rows i = Some r -> nth_error lvs i = Some l -> exists j, (1 <= j)%nat /\ shoreline_at j r l) ->
  substeps1 g dtgw rows lvs gws = Ok (ms, rs) -> Forall (level h) ms /\ Forall (level h) rs.
Proof.
  intros Hsp Hwv Hst Hn Hr Hk Hl1 Hl2 (Hg1 & Hg2) Hm He Hd Hw Hs H. unfold substeps1 in H. eapply over_rows_prop. exact H. intros i o row lv w m r Eo Er El Ew E.
  pose proof (Forall_nth_error _ _ _ _ Hr Er) as Sr. pose proof (Forall_nth_error _ _ _ _ Hl2 El) as Sl. destruct (Hs i row lv Er El) as (j & Hj & Hsh). pose proof (shore_at _ _ _ _ Sr Sl Hsh) as Esh.
  pose proof (Forall_nth_error _ _ _ _ Hm Er) as (Hmk & Hds). apply nth_error_In in Eo. apply previous_in in Eo.
  eapply (level_substep g dtgw o row lv w h e n j); try eassumption. exact (Forall_nth_error _ _ _ _ Hg2 Ew). 2: exact (Forall_nth_error _ _ _ _ Hd El). 2: exact (Forall_nth_error _ _ _ _ Hw Ew).
  destruct Eo as [->|Eo]. lia. apply In_nth_error in Eo. destruct Eo as (q & Eq). apply nth_error_map2 in Eq. destruct Eq as (r' & l' & Er' & El' & ->).
  pose proof (Forall_nth_error _ _ _ _ Hr Er') as (_ & _ & Sz & _). split. apply shore_ge_m1. rewrite <- Sz. apply shore_lt. lia.
Qed.
Lemma level_substeps g dtgw rows lv h e n k m : seepage g = false -> waves g = false -> (static g = true -> GW_stat g == h) -> (4 <= n)%nat -> rows_shaped n rows -> length rows = k -> all_levels_shaped n k lv ->
  Forall (fun r => Forall unmasked (gmask r) /\ level e (gds r)) rows -> ~ e == 0 -> (forall i, Forall (fun l => level h (dswl l)) (lv i)) ->
  forall i gws r, field_shaped n k gws -> Forall (level h) gws -> shorelines_inside rows lv (i + m) -> substeps g dtgw rows lv i m gws = Ok r -> Forall (level h) r.
Proof.
  intros Hsp Hwv Hst Hn Hr Hk Hl Hm He Hd. induction m as [|m IH]; intros i gws r Hg Hw Hs H. apply Ok_inj in H. subst. exact Hw. cbn [substeps] in H.
  destruct (substeps1 g dtgw rows (lv i) gws) as [[ms rs]|] eqn:E; cbn [bind snd] in H; [|discriminate]. destruct (Hl i) as (L1 & L2). apply (IH (S i) rs r). apply (substeps1_shape g dtgw rows (lv i) gws ms rs n k); auto.
  apply (level_substeps1 g dtgw rows (lv i) gws h e n k ms rs); auto. intros q r' l' Er El. apply (Hs i q r' l'); auto; lia. rewrite Nat.add_succ_r in Hs. exact Hs. exact H.
Qed.

(** * The stored previous levels *)
Lemma nth_put z v l j : nth j (put z v l) 0 = if Nat.eqb j (position (length l) z) && Nat.ltb (position (length l) z) (length l) then v else nth j l 0.
Proof. apply nth_put_nat. Qed.
Lemma nth_put_other z v l j : j <> position (length l) z -> nth j (put z v l) 0 = nth j l 0.
Proof. intros H. rewrite nth_put. destruct (Nat.eqb_spec j (position (length l) z)); [contradiction|reflexivity]. Qed.
Lemma edges_inner g s o d w j : (0 <= s)%Z -> (0 <= o)%Z -> j <> Z.to_nat s -> j <> Z.to_nat o -> (j + 3 < length w)%nat -> nth j (edges g s o d w) 0 = nth j w 0.
Proof.
  intros Hs Ho H1 H2 H3. unfold edges. rewrite !nth_put_other. reflexivity. all: rewrite ?put_length; unfold position.
  - destruct (Z.ltb_spec s 0); lia.
  - destruct (Z.ltb_spec o 0); lia.
  - cbn [Z.ltb Z.compare]. lia.
  - cbn [Z.ltb Z.compare]. lia.
  - cbn [Z.ltb Z.compare]. lia.
Qed.
Lemma substep_mutated g dtgw o row lv w m r : seepage g = false -> substep g dtgw o row lv w = Ok (m, r) -> m = edges g (shore (gzb row) (dswl lv)) o (dswl lv) w.
Proof.
  intros Hsp. unfold substep. unfold boussinesq at 1. unfold seep at 1. rewrite Hsp. cbn [bind]. destruct (change g _ (gds row) _); cbn [bind fst snd]; [|discriminate].
  repeat match goal with |- bind ?m _ = _ -> _ => destruct m; cbn [bind]; [|discriminate] end. intros H. apply Ok_inj in H. injection H as <- _. reflexivity.
Qed.

(** * Transects *)
Lemma previous_const c (l : list Z) i x : (forall y, In y l -> y = c) -> l <> [] -> nth_error (previous l) i = Some x -> x = c.
Proof.
  intros H Hne E. apply nth_error_In in E. unfold previous in E. destruct (exists_last Hne) as (l' & z & El). rewrite El, last_last, removelast_last in E. apply H. rewrite El. apply in_or_app. destruct E as [<-|E]; auto. right. left. reflexivity.
Qed.
Lemma substeps1_row g dtgw rows lvs gws ms rs s k row lv w : (forall i r l, nth_error rows i = Some r -> nth_error lvs i = Some l -> shore (gzb r) (dswl l) = s) -> substeps1 g dtgw rows lvs gws = Ok (ms, rs) ->
  nth_error rows k = Some row -> nth_error lvs k = Some lv -> nth_error gws k = Some w -> exists m r, nth_error ms k = Some m /\ nth_error rs k = Some r /\ substeps1 g dtgw [row] [lv] [w] = Ok ([m], [r]).
Proof.
  intros Hs H Er El Ew. unfold substeps1 in H. set (os := previous _) in H. assert (Hne : map2 (fun r l => shore (gzb r) (dswl l)) rows lvs <> []).
  { intros E. pose proof (map2_nth_error (fun r l => shore (gzb r) (dswl l)) _ _ _ _ _ Er El) as E'. rewrite E in E'. destruct k; discriminate. }
  apply over_rows_spec in H. destruct H as (L1 & L2 & H). assert (Lk : (k < length rs)%nat).
  { rewrite L1. unfold os. rewrite previous_length by exact Hne. rewrite map2_min. assert (k < length rows)%nat by (apply nth_error_Some; congruence). assert (k < length lvs)%nat by (apply nth_error_Some; congruence). assert (k < length gws)%nat by (apply nth_error_Some; congruence). lia. }
  destruct (nth_error_lt rs k Lk) as (r & Err). destruct (nth_error_lt ms k) as (m & Em). lia. exists m, r. split. exact Em. split. exact Err.
  destruct (H k m r Em Err) as (o & row' & lv' & w' & Eo & Er' & El' & Ew' & E). rewrite Er in Er'. rewrite El in El'. rewrite Ew in Ew'. injection Er' as <-. injection El' as <-. injection Ew' as <-.
  assert (o = s). { eapply (previous_const s); [|exact Hne|exact Eo]. intros y Hy. apply In_nth_error in Hy. destruct Hy as (q & Eq). apply nth_error_map2 in Eq. destruct Eq as (a & b & Ea & Eb & ->). eapply Hs; eassumption. }
  subst o. unfold substeps1. cbn [map2 previous last removelast over_rows]. rewrite (Hs k row lv Er El). rewrite E. reflexivity.
Qed.
Lemma substeps_row g dtgw rows lv s m k row : nth_error rows k = Some row -> (forall i, nth_error (lv i) k <> None) -> (forall i q r l, nth_error rows q = Some r -> nth_error (lv i) q = Some l -> shore (gzb r) (dswl l) = s i) ->
  forall i gws r w, nth_error gws k = Some w -> substeps g dtgw rows lv i m gws = Ok r -> exists x, nth_error r k = Some x /\
    substeps g dtgw [row] (fun i => match nth_error (lv i) k with Some l => [l] | None => [] end) i m [w] = Ok [x].
Proof.
  intros Er Hl Hs. induction m as [|m IH]; intros i gws r w Ew H. apply Ok_inj in H. subst. exists w. split. exact Ew. reflexivity. cbn [substeps] in *.
  destruct (substeps1 g dtgw rows (lv i) gws) as [[ms rs]|] eqn:E; cbn [bind snd] in H; [|discriminate]. destruct (nth_error (lv i) k) as [l|] eqn:El; [|destruct (Hl i El)].
  destruct (substeps1_row g dtgw rows (lv i) gws ms rs (s i) k row l w (Hs i) E Er El Ew) as (m' & r' & _ & Er' & E'). rewrite E'. cbn [bind snd]. apply (IH (S i) rs r r' Er' H).
Qed.

(** * Runup overheight *)
Lemma even_nth d x i : even_spacing d x -> (i < length x)%nat -> nth i x 0 == nth 0 x 0 + inject_Z (Z.of_nat i) * d.
Proof.
  intros H. induction i as [|i IH]; intros Hi. change (inject_Z (Z.of_nat 0)) with 0. ring. destruct (nth_error_lt x i ltac:(lia)) as (a & Ea). destruct (nth_error_lt x (S i) Hi) as (b & Eb).
  pose proof (H i a b Ea Eb) as Hab. rewrite (nth_error_nth _ _ 0 Ea) in IH. rewrite (nth_error_nth _ _ 0 Eb), Hab, IH by lia. rewrite Nat2Z.inj_succ. unfold Z.succ. rewrite inject_Z_plus. change (inject_Z 1) with 1. ring.
Qed.
Lemma put_slice_nth a b f (x l r : list Q) j : (0 <= a)%Z -> (0 <= b)%Z -> (b <= Z.of_nat (length l))%Z -> length x = length l -> put_slice a b (map f (slice a b x)) l = Ok r ->
  nth j r 0 = if Z.leb a (Z.of_nat j) && Z.ltb (Z.of_nat j) b then f (nth j x 0) else nth j l 0.
Proof.
  intros Ha Hb Hbl Hx H. unfold put_slice in H. destruct (Nat.eqb_spec (length (map f (slice a b x))) (length (slice a b l))) as [_|]; [|discriminate]. apply Ok_inj in H. subst r.
  rewrite (slice_len a b l). assert (Lm : length (map f (slice a b x)) = Nat.min (bound_to (length l) b - bound_to (length l) a) (length l - bound_to (length l) a)) by (rewrite map_length, slice_len, Hx; reflexivity).
  unfold bound_to in *. destruct (Z.ltb_spec a 0); [lia|]. destruct (Z.ltb_spec b 0); [lia|].
  assert (L1 : length (firstn (Nat.min (length l) (Z.to_nat a)) l) = Nat.min (length l) (Z.to_nat a)) by (rewrite firstn_length; lia).
  destruct (Z.leb_spec a (Z.of_nat j)), (Z.ltb_spec (Z.of_nat j) b); cbn [andb].
  - rewrite app_nth2, L1 by lia. rewrite app_nth1 by lia. rewrite (nth_indep _ 0 (f 0)) by (rewrite Lm; lia). rewrite map_nth. f_equal. unfold slice, bound_to. destruct (Z.ltb_spec a 0); [lia|]. destruct (Z.ltb_spec b 0); [lia|].
    rewrite nth_firstn_Q by lia. rewrite nth_skipn_Q. f_equal. lia.
  - rewrite app_nth2, L1 by lia. destruct (Nat.lt_ge_cases j (length l)) as [Hj|Hj].
    + rewrite app_nth2 by lia. rewrite nth_skipn_Q. f_equal. lia.
    + rewrite app_nth2 by lia. rewrite nth_skipn_Q. rewrite !nth_overflow by lia. reflexivity.
  - rewrite app_nth1 by lia. apply nth_firstn_Q. lia.
  - destruct (Nat.lt_ge_cases j (length l)) as [Hj|Hj].
    + rewrite app_nth1 by lia. apply nth_firstn_Q. lia.
    + rewrite !nth_overflow. reflexivity. lia. rewrite !app_length, L1, Lm, skipn_length. lia.
Qed.
Lemma overheight_range d x s r f : 0 < d -> even_spacing d x -> (0 <= s <= r)%Z -> (r < Z.of_nat (length x))%Z -> overheight s r x = Ok f ->
  forall j v, nth_error f j = Some v -> 0 <= v <= 1 /\ ((Z.of_nat j < s)%Z \/ (r < Z.of_nat j)%Z -> v == 0).
Proof.
  intros Hd He Hs Hr H j v Ev. unfold overheight in H. set (p := peak s r) in *. assert (Hp : (s <= p <= r /\ 3 * p <= 3 * s + 2 * (r - s) < 3 * (p + 1))%Z).
  { unfold p, peak. rewrite Z.quot_div_nonneg by lia. pose proof (Z.div_mod (3 * s + 2 * (r - s)) 3 ltac:(lia)). pose proof (Z.mod_pos_bound (3 * s + 2 * (r - s)) 3 ltac:(lia)). lia. }
  clearbody p. set (len := get r x - get s x) in *.
  destruct (put_slice s p (map (fun v => (v - get s x) / ((2 # 3) * len)) (slice s p x)) (zeros (length x))) as [f1|] eqn:E1; cbn [bind] in H; [|discriminate].
  destruct (put_slice (p + 1) r (map (fun v => 3 - (v - get s x) / ((1 # 3) * len)) (slice (p + 1) r x)) f1) as [f2|] eqn:E2; cbn [bind] in H; [|discriminate]. apply Ok_inj in H.
  assert (Lf1 : length f1 = length x) by (apply put_slice_length in E1; rewrite zeros_length in E1; exact E1). assert (Lf2 : length f2 = length x) by (apply put_slice_length in E2; congruence).
  assert (Hj : (j < length x)%nat). { rewrite <- Lf2, <- (put_length p 1 f2), H. apply nth_error_Some. congruence. }
  assert (Ev' : nth j f 0 = v) by (apply nth_error_nth; exact Ev). rewrite <- Ev', <- H, nth_put, Lf2. clear v Ev Ev' H f.
  assert (Ep : position (length x) p = Z.to_nat p) by (unfold position; destruct (Z.ltb_spec p 0); [lia|reflexivity]). rewrite Ep.
  destruct (Nat.eqb_spec j (Z.to_nat p)) as [Ej|Ej]; cbn [andb].
  { destruct (Nat.ltb_spec (Z.to_nat p) (length x)); [|lia]. split. split; discriminate. intros. lia. }
  apply (put_slice_nth (p + 1) r (fun v => 3 - (v - get s x) / ((1 # 3) * len)) x f1 f2 j) in E2; try lia. apply (put_slice_nth s p (fun v => (v - get s x) / ((2 # 3) * len)) x (zeros (length x)) f1 j) in E1; try lia. 2: rewrite zeros_length; lia. 2: rewrite zeros_length; reflexivity.
  rewrite E2, E1, zeros_nth. clear E1 E2.
  assert (Gs : get s x == nth 0 x 0 + inject_Z s * d). { unfold get, position. destruct (Z.ltb_spec s 0); [lia|]. rewrite (even_nth d x _ He) by lia. rewrite Z2Nat.id by lia. reflexivity. }
  assert (Gr : get r x == nth 0 x 0 + inject_Z r * d). { unfold get, position. destruct (Z.ltb_spec r 0); [lia|]. rewrite (even_nth d x _ He) by lia. rewrite Z2Nat.id by lia. reflexivity. }
  pose proof (even_nth d x j He Hj) as Gj. assert (Gl : len == (inject_Z r - inject_Z s) * d) by (unfold len; rewrite Gs, Gr; ring).
  set (J := Z.of_nat j) in *.
  destruct (Z.leb_spec (p + 1) J), (Z.ltb_spec J r); cbn [andb].
  - assert (inject_Z s + 1 <= inject_Z r). { change 1 with (inject_Z 1). rewrite <- inject_Z_plus, <- Zle_Qle. lia. }
    assert (E : 3 - (nth j x 0 - get s x) / ((1 # 3) * len) == 3 - 3 * (inject_Z J - inject_Z s) / (inject_Z r - inject_Z s)). { rewrite Gj, Gs, Gl. field. split; lra. }
    rewrite E. split; [|lia]. assert (B1 : 3 * (inject_Z J - inject_Z s) / (inject_Z r - inject_Z s) <= 3). { apply Qle_shift_div_r. lra. assert (inject_Z J <= inject_Z r) by (rewrite <- Zle_Qle; lia). lra. }
    assert (B2 : 2 <= 3 * (inject_Z J - inject_Z s) / (inject_Z r - inject_Z s)). { apply Qle_shift_div_l. lra. assert (inject_Z (3 * s + 2 * (r - s)) <= inject_Z (3 * J)) by (rewrite <- Zle_Qle; lia). unfold Zminus in *. rewrite !inject_Z_plus, !inject_Z_mult, inject_Z_plus, inject_Z_opp in *. change (inject_Z 3) with 3 in *. change (inject_Z 2) with 2 in *. lra. } lra.
  - destruct (Z.leb_spec s J), (Z.ltb_spec J p); cbn [andb]; try lia; (split; [lra | reflexivity]).
  - destruct (Z.leb_spec s J), (Z.ltb_spec J p); cbn [andb]; try (split; [lra | reflexivity]).
    assert (inject_Z s + 1 <= inject_Z r). { change 1 with (inject_Z 1). rewrite <- inject_Z_plus, <- Zle_Qle. lia. }
    assert (E : (nth j x 0 - get s x) / ((2 # 3) * len) == 3 * (inject_Z J - inject_Z s) / (2 * (inject_Z r - inject_Z s))). { rewrite Gj, Gs, Gl. field. split; lra. }
    rewrite E. split; [|lia]. split. apply Qle_shift_div_l. lra. assert (inject_Z s <= inject_Z J) by (rewrite <- Zle_Qle; lia). lra.
    apply Qle_shift_div_r. lra. assert (inject_Z (3 * J) <= inject_Z (3 * s + 2 * (r - s))) by (rewrite <- Zle_Qle; lia). unfold Zminus in *. rewrite !inject_Z_plus, !inject_Z_mult, inject_Z_plus, inject_Z_opp in *. change (inject_Z 3) with 3 in *. change (inject_Z 2) with 2 in *. lra.
  - destruct (Z.leb_spec s J), (Z.ltb_spec J p); cbn [andb]; try lia; (split; [lra | reflexivity]).
Qed.
