(** Statements and concrete cases for water levels and groundwater. *)
From Coq Require Import QArith ZArith Lia Lqa List Bool Arith Setoid.
From Verif Require Import Base Num Utils_Model Utils_Spec Utils_Proofs Hydro_Model Hydro_Spec Hydro_Proofs Hydro_Shore.
Import ListNotations.
Open Scope Q_scope.

(** * C35 *)
Lemma water_level h t row : map zb (interpolate h t row) = map zb row /\ forall c, In c (interpolate h t row) ->
  zb c <= zs c /\ SWL c <= zs c /\ (zs c == zb c \/ zs c == SWL c) /\
  forall s lo hi, process_tide h = true -> tide_file h = Some s -> Utils_Spec.series (fst s :: snd s) -> values_within lo hi s -> unmasked (tide_mask c) -> lo <= SWL c <= hi.
Proof.
  split. apply interp_beds. intros c Hc. destruct (level_at_bed _ _ _ _ Hc) as (A & B & C). split. exact A. split. exact B. split. destruct C as [-> | ->]; [left|right]; reflexivity.
  intros s lo hi Hp Hf Hs Hv Hm. apply interp_cells in Hc. destruct Hc as (c0 & _ & _ & _ & Et & _ & E & _). rewrite E. unfold still_level. rewrite Hp, Hf. rewrite Et in Hm. rewrite (unmasked_value _ _ Hm). apply circular_range; assumption.
Qed.
Lemma waves_limited h t row c : 0 <= gamma h -> In c (interpolate h t row) -> unmasked (wave_mask c) ->
  Hs c <= gamma h * depth c /\ (proper_waves h -> 0 <= Hs c /\ (zs c <= zb c -> Hs c == 0)) /\
  (process_wave h = true -> wave_file h <> None -> Hsmix c <= gamma h * qmax 0 (TWL c - zb c)).
Proof. intros Hg Hc Hm. destruct (wave_limited h t row c Hg Hc Hm) as (A & B). split. exact A. split. exact B. intros. eapply mixing_limited; eassumption. Qed.
Definition plain (z : Q) (mask : Q * Q) : cell := {| zb := z; tide_mask := (1, 0); wave_mask := mask; runup_mask := (1, 0); SWL := 0; Hs := 0; Tp := 0; R := 0; eta := 0; TWL := 0; DSWL := 0; Hsmix := 0; zs := 0 |}.
Definition tidal : hydro := {| process_tide := true; tide_file := Some ((0, 0), [(3600, 1); (7200, 0)]); process_wave := true; wave_file := Some (((0, 2), [(7200, 2)]), ((0, 8), [(7200, 8)])); gamma := 1 # 2;
  process_runup := true; stockdon := fun h _ => let a := qmax 0 h in (a / 10, a / 5, a * (3 # 10)) |}.
Example water_level_case : Forall2 (fun c x => SWL c == 1 /\ zs c == fst x /\ Hs c == snd x) (interpolate tidal 3600 [plain (-2) (1, 0); plain (-1) (1, 0); plain 2 (1, 0)]) [(1, 3 # 2); (1, 1); (2, 0)].
Proof. vm_compute. repeat constructor. Qed.
Example waves_limited_case : proper_waves tidal /\ 0 <= gamma tidal /\ exists c, In c (interpolate tidal 3600 [plain (-2) (1, 0); plain (-1) (1, 0); plain 2 (1, 0)]) /\ unmasked (wave_mask c) /\ 0 < Hs c /\ Hs c == gamma tidal * depth c /\ TWL c == 29 # 20.
Proof.
  split. split. repeat constructor. split. discriminate. intros p [<-|[]]. discriminate. split. discriminate. eexists. split. right. left. reflexivity. repeat split; vm_compute; reflexivity.
Qed.
Lemma wave_mask_refuted : exists h t row c, proper_waves h /\ 0 <= gamma h /\ In c (interpolate h t row) /\ gamma h * depth c < Hs c.
Proof.
  exists tidal, 3600, [plain (-2) (1, 0); plain (-1) (2, 0)]. eexists. split. split. repeat constructor. split. discriminate. intros p [<-|[]]. discriminate. split. discriminate. split. right. left. reflexivity. vm_compute. reflexivity.
Qed.

(** * C37 *)
Lemma groundwater_bounded g dt tfac rows lv gw prev n k m wet gw' prev' : rows_shaped n rows -> length rows = k -> all_levels_shaped n k lv -> field_shaped n k gw -> gw_steps dt tfac = Ok (S m) ->
  groundwater g dt tfac rows lv gw prev = Ok (wet, gw', prev') -> field_shaped n k gw' /\
  forall i j r l w z s, nth_error rows i = Some r -> nth_error (lv m) i = Some l -> at_cell i j gw' w -> nth_error (gzb r) j = Some z -> nth_error (dswl l) j = Some s -> w <= qmax z s /\ (z < s -> w == s).
Proof.
  intros Hr Hk Hl Hg Hst H. destruct (groundwater_as_steps _ _ _ _ _ _ _ _ _ _ _ Hst H) as (E & _). split. exact (substeps_shape _ _ _ _ _ _ _ Hr Hk Hl _ _ _ Hg E).
  intros i j r l w z s Er El (row & Ew & Ej) Ez Es. destruct (substeps_bound _ _ _ _ _ _ _ _ E i j row w Ew Ej) as (r' & l' & z' & s' & Er' & El' & Ez' & Es' & B). cbn [Nat.add] in El'.
  rewrite Er in Er'. injection Er' as <-. rewrite El in El'. injection El' as <-. rewrite Ez in Ez'. injection Ez' as <-. rewrite Es in Es'. injection Es' as <-. exact B.
Qed.
Definition mk_row (ds : list Q) (z : list Q) : gwrow := {| gx := [0; 1; 2; 3; 4; 5; 6; 7; 8]; gds := ds; gzb := z; gmask := repeat (1, 0) 9 |}.
Definition ones : list Q := repeat 1 9.
Definition steep : list Q := [-2; -1; 10; 10; 10; 10; 10; 10; 10].
Definition flat : list Q := [-2; -1; -1; -1; 10; 10; 10; 10; 10].
Definition beach : list Q := [-2; -1; -(1 # 2); 1 # 2; 1; 2; 3; 10; 10].
Definition sea (h : Q) : levels := {| dswl := repeat h 9; twl := repeat h 9 |}.
Definition sand (st : bool) (v : Q) : gwcfg := {| static := st; GW_stat := v; K_gw := 1 # 100; ne_gw := 1 # 10; D_gw := 1; Cl_gw := 0; seepage := false; waves := false |}.
Lemma mk_row_shaped z : length z = 9%nat -> row_shaped 9 (mk_row ones z).
Proof. intros H. repeat split. exact H. Qed.
Lemma sea_shaped h : levels_shaped 9 (sea h). Proof. split; reflexivity. Qed.
Definition agree (r : result (list (list bool) * list (list Q) * list (list Q))) (gw : list (list Q)) : Prop :=
  match r with Ok (_, w, _) => Forall2 (Forall2 Qeq) w gw | Raise _ => False end.
Ltac all_eq := vm_compute; repeat constructor.
Example groundwater_bounded_case : rows_shaped 9 [mk_row ones steep] /\ all_levels_shaped 9 1 (fun _ => [sea 1]) /\ field_shaped 9 1 [repeat 0 9] /\ gw_steps 1 1 = Ok 1%nat /\
  agree (groundwater (sand false 0) 1 1 [mk_row ones steep] (fun _ => [sea 1]) [repeat 0 9] [repeat 0 9]) [[1; 1; 6911 # 80000; 0; 0; 0; 0; 0; 0]].
Proof. split. repeat constructor. split. intros i. repeat constructor. split. repeat constructor. split. vm_compute. reflexivity. all_eq. Qed.
Example steps_cover_case : 0 < 10 /\ 10 <= 60 /\ gw_steps 60 10 = Ok 10%nat. Proof. repeat apply conj; vm_compute; try reflexivity; discriminate. Qed.
Lemma time_lost_refuted : exists dt tfac n, 0 < tfac /\ tfac <= dt /\ gw_steps dt tfac = Ok n /\ ~ inject_Z (Z.of_nat n) * inject_Z (gw_timestep dt tfac) == dt.
Proof. exists 65, 10, 10%nat. repeat apply conj; vm_compute; try reflexivity; discriminate. Qed.
Lemma no_step_refuted : exists dt tfac, 0 < tfac /\ tfac <= dt /\ gw_steps dt tfac = Ok O.
Proof. exists 3600, (1 # 2). repeat apply conj; vm_compute; try reflexivity; discriminate. Qed.
Lemma short_step g dt tfac rows lv gw prev : 0 <= dt -> dt < tfac -> groundwater g dt tfac rows lv gw prev = Raise ZeroDivisionError.
Proof. intros H1 H2. unfold groundwater. rewrite (steps_raise _ _ H1 H2). reflexivity. Qed.
Example short_step_case : 0 <= 5 /\ 5 < 10. Proof. split; [discriminate|reflexivity]. Qed.

(** * C66 *)
Lemma transects_alone g dt tfac rows lv gw prev n k m s wet gw' prev' q row w p : rows_shaped n rows -> length rows = k -> all_levels_shaped n k lv -> gw_steps dt tfac = Ok m ->
  (forall i r l c, nth_error rows c = Some r -> nth_error (lv i) c = Some l -> shoreline_at (s i) r l) ->
  groundwater g dt tfac rows lv gw prev = Ok (wet, gw', prev') -> nth_error rows q = Some row -> nth_error gw q = Some w -> exists wet1 x prev1, nth_error gw' q = Some x /\
    groundwater g dt tfac [row] (only_transect q lv) [w] p = Ok (wet1, [x], prev1).
Proof.
  intros Hr Hk Hl Hst Hs H Er Ew. destruct (groundwater_as_steps _ _ _ _ _ _ _ _ _ _ _ Hst H) as (E & _).
  destruct (substeps_row g (inject_Z (gw_timestep dt tfac)) rows lv (fun i => Z.of_nat (s i)) m q row Er) with (i := O) (gws := gw) (r := gw') (w := w) as (x & Ex & E1); auto.
  { intros i Hi. apply nth_error_None in Hi. destruct (Hl i) as (Li & _). assert (q < length rows)%nat by (apply nth_error_Some; congruence). lia. }
  { intros i c r l Er' El'. eapply shore_at; [exact (Forall_nth_error _ _ _ _ Hr Er')| |eapply Hs; eassumption]. destruct (Hl i) as (_ & Li). exact (Forall_nth_error _ _ _ _ Li El'). }
  fold (only_transect q lv) in E1. unfold groundwater. rewrite Hst. cbn [bind]. destruct m as [|m].
  - cbn [substeps] in E1. apply Ok_inj in E1. injection E1 as <-. eauto.
  - cbn [substeps] in E1. destruct (substeps1 g (inject_Z (gw_timestep dt tfac)) [row] (only_transect q lv 0) [w]) as [r|]; cbn [bind] in *; [|discriminate]. rewrite E1. cbn [bind]. eauto.
Qed.
Lemma steep_shore h r : -1 <= h -> h < 10 -> gzb r = steep -> shoreline_at 1 r (sea h).
Proof.
  intros H1 H2 E. split.
  - intros [|[|j]] z s Hj Ez Es; try lia; rewrite E in Ez; cbn in Ez, Es; injection Ez as <-; injection Es as <-; lra.
  - exists 10, h. rewrite E. repeat split; try reflexivity. exact H2.
Qed.
Definition twins : nat -> list levels := fun _ => [sea 1; sea 2].
Example transects_alone_case : rows_shaped 9 [mk_row ones steep; mk_row ones steep] /\ (forall i r l c, nth_error [mk_row ones steep; mk_row ones steep] c = Some r -> nth_error (twins i) c = Some l -> shoreline_at 1 r l) /\
  agree (groundwater (sand false 0) 1 1 [mk_row ones steep; mk_row ones steep] twins [repeat 0 9; repeat 0 9] [repeat 0 9; repeat 0 9]) [[1; 1; 6911 # 80000; 0; 0; 0; 0; 0; 0]; [2; 2; 41130157 # 250000000; -25626629 # 3125000000; -58657 # 250000000; -289501 # 37500000000; 0; 0; 0]].
Proof.
  split. repeat constructor. split. intros i r l [|[|c]] Er El; cbn in Er, El; [| |destruct c; discriminate]; injection Er as <-; injection El as <-; apply steep_shore; try reflexivity; discriminate. all_eq.
Qed.
Lemma transects_refuted : exists g dt tfac row other l l' w w' p wet gw' prev' wet1 x prev1, groundwater g dt tfac [row; other] (fun _ => [l; l']) [w; w'] [p; p] = Ok (wet, gw', prev') /\
  groundwater g dt tfac [row] (fun _ => [l]) [w] [p] = Ok (wet1, [x], prev1) /\ exists u v, at_cell 0 3 gw' u /\ nth_error x 3 = Some v /\ v == 0 /\ 3 # 4 < u.
Proof.
  exists (sand false 0), 1, 1, (mk_row ones steep), (mk_row ones flat), (sea 1), (sea 1), (repeat 0 9), (repeat 0 9), (repeat 0 9).
  do 6 eexists. split. vm_compute. reflexivity. split. vm_compute. reflexivity. do 2 eexists. split. eexists. split; reflexivity. split. reflexivity. split. reflexivity. vm_compute. reflexivity.
Qed.

(** * C67 *)
Lemma rests g h e dt tfac rows lv gw prev n k m : (4 <= n)%nat -> rows_shaped n rows -> length rows = k -> all_levels_shaped n k lv -> field_shaped n k gw -> gw_steps dt tfac = Ok m -> shorelines_inside rows lv m ->
  at_rest g h e rows lv -> Forall (level h) gw -> exists wet gw' prev', groundwater g dt tfac rows lv gw prev = Ok (wet, gw', prev') /\ Forall (level h) gw'.
Proof.
  intros Hn Hr Hk Hl Hg Hst Hs (H1 & H2 & H3 & H4 & H5 & H6) Hw. destruct (groundwater_ok g dt tfac rows lv gw prev n k m Hr Hk Hl Hg Hst Hs) as (wet & gw' & prev' & E). exists wet, gw', prev'. split. exact E.
  destruct (groundwater_as_steps _ _ _ _ _ _ _ _ _ _ _ Hst E) as (E' & _). exact (level_substeps g _ rows lv h e n k m H1 H2 H3 Hn Hr Hk Hl H5 H4 H6 O gw gw' Hg Hw Hs E').
Qed.
Lemma ones_level h : level h (repeat h 9). Proof. intros x Hx. apply repeat_spec in Hx. subst. reflexivity. Qed.
Example rests_case : at_rest (sand true 1) 1 1 [mk_row ones steep] (fun _ => [sea 1]) /\ shorelines_inside [mk_row ones steep] (fun _ => [sea 1]) 2 /\ Forall (level 1) [ones] /\ gw_steps 4 2 = Ok 2%nat.
Proof.
  repeat apply conj; try reflexivity. discriminate.
  - repeat constructor. cbn. apply ones_level.
  - intros i. repeat constructor. cbn. apply ones_level.
  - intros i k r l _ Er El. destruct k as [|[|k]]; cbn in Er, El; try discriminate. injection Er as <-. injection El as <-. exists 1%nat. split. lia. apply steep_shore; try reflexivity; discriminate.
  - repeat constructor. apply ones_level.
Qed.
Lemma uneven_refuted : exists g h dt tfac row lv gw prev wet gw' prev', seepage g = false /\ waves g = false /\ static g = false /\ Forall unmasked (gmask row) /\ level h (dswl lv) /\ level h gw /\
  groundwater g dt tfac [row] (fun _ => [lv]) [gw] [prev] = Ok (wet, gw', prev') /\ exists v, at_cell 0 3 gw' v /\ v < (19 # 20) * h.
Proof.
  exists (sand false 0), 1, 1, 1, (mk_row [1; 1; 1; 1; 2; 2; 2; 2; 2] steep), (sea 1), ones, ones. do 3 eexists. split. reflexivity. split. reflexivity. split. reflexivity. split. repeat constructor. split. apply ones_level. split. apply ones_level. split. vm_compute. reflexivity.
  eexists. split. eexists. split; reflexivity. vm_compute. reflexivity.
Qed.
Lemma mound_refuted : exists g dt tfac row lv gw prev wet gw' prev' top, seepage g = false /\ waves g = false /\ Forall unmasked (gmask row) /\ level 1 (gds row) /\
  (forall x, In x (dswl lv) -> x <= top) /\ (forall x, In x gw -> x <= top) /\ GW_stat g <= top /\
  groundwater g dt tfac [row] (fun _ => [lv]) [gw] [prev] = Ok (wet, gw', prev') /\ exists v, at_cell 0 2 gw' v /\ (3 # 2) * top < v.
Proof.
  exists (sand true 3), 1, 1, (mk_row ones steep), (sea 0), [0; 0; 3; 3; 3; 3; 3; 3; 3], (repeat 0 9). do 3 eexists. exists 3. split. reflexivity. split. reflexivity. split. repeat constructor. split. apply ones_level.
  split. intros x Hx. apply repeat_spec in Hx. subst. discriminate. split. intros x Hx. repeat (destruct Hx as [<-|Hx]; [discriminate|]). destruct Hx. split. discriminate. split. vm_compute. reflexivity.
  eexists. split. eexists. split; reflexivity. vm_compute. reflexivity.
Qed.

(** * C68 *)
Lemma previous_nth (l : list Z) i x : nth_error (previous l) i = Some x -> l <> [] -> exists q, (S q = i \/ (i = O /\ S q = length l)) /\ nth_error l q = Some x.
Proof.
  intros E Hne. unfold previous in E. destruct (exists_last Hne) as (l' & z & El). rewrite El, last_last, removelast_last in E. rewrite El. destruct i as [|i]; cbn [nth_error] in E.
  - injection E as <-. exists (length l'). split. right. split. reflexivity. rewrite app_length. cbn. lia. rewrite nth_error_app2, Nat.sub_diag by lia. reflexivity.
  - exists i. split. left. reflexivity. rewrite nth_error_app1. exact E. apply nth_error_Some. congruence.
Qed.
Lemma wetting_cell i j gw prev b w p : at_cell i j (wetting gw prev) b -> at_cell i j gw w -> at_cell i j prev p -> b = Qltb p w.
Proof.
  intros (rb & E1 & E2) (rw & E3 & E4) (rp & E5 & E6). unfold wetting in E1. apply nth_error_map2 in E1. destruct E1 as (a & c & Ea & Ec & ->). rewrite Ea in E3. injection E3 as <-. rewrite Ec in E5. injection E5 as <-.
  apply nth_error_map2 in E2. destruct E2 as (u & v & Eu & Ev & ->). congruence.
Qed.
Lemma stored_levels g dt tfac rows lv gw prev n k m wet gw' prev' i j w p : rows_shaped n rows -> length rows = k -> all_levels_shaped n k lv -> field_shaped n k gw -> gw_steps dt tfac = Ok (S m) -> seepage g = false -> shorelines_inside rows lv (S m) ->
  groundwater g dt tfac rows lv gw prev = Ok (wet, gw', prev') -> ~ boundary_cell n i j rows (lv O) -> at_cell i j gw w -> at_cell i j prev' p -> p = w.
Proof.
  intros Hr Hk Hl (Hg1 & Hg2) Hst Hsp Hs H Hb (rw & E1 & E2) (rp & E3 & E4). destruct (groundwater_as_steps _ _ _ _ _ _ _ _ _ _ _ Hst H) as (_ & _ & _ & Hm). destruct (Hm m eq_refl) as ([ms rs] & E & ->). cbn [fst] in E3.
  destruct (Hl O) as (L1 & L2). unfold substeps1 in E. apply over_rows_spec in E. destruct E as (La & Lb & E). destruct (nth_error_lt rs i) as (x & Ex). rewrite <- Lb. apply nth_error_Some. congruence.
  destruct (E i rp x E3 Ex) as (o & row & l & w0 & Eo & Er & El & Ew & Ef). rewrite E1 in Ew. injection Ew as <-. apply (substep_mutated _ _ _ _ _ _ _ _ Hsp) in Ef. subst rp.
  pose proof (Forall_nth_error _ _ _ _ Hr Er) as Sr. pose proof (Forall_nth_error _ _ _ _ L2 El) as Sl. destruct (Hs O i row l ltac:(lia) Er El) as (s & Hs1 & Hsh). rewrite (shore_at _ _ _ _ Sr Sl Hsh) in E4.
  destruct (previous_nth _ _ _ Eo) as (q & Hq & Eq). { intros E'. pose proof (map2_nth_error (fun r l => shore (gzb r) (dswl l)) _ _ _ _ _ Er El) as E''. rewrite E' in E''. destruct i; discriminate. }
  rewrite map2_length in Hq by congruence. apply nth_error_map2 in Eq. destruct Eq as (r' & l' & Er' & El' & Eo').
  pose proof (Forall_nth_error _ _ _ _ Hr Er') as Sr'. pose proof (Forall_nth_error _ _ _ _ L2 El') as Sl'. destruct (Hs O q r' l' ltac:(lia) Er' El') as (s' & Hs1' & Hsh'). rewrite (shore_at _ _ _ _ Sr' Sl' Hsh') in Eo'. subst o.
  pose proof (Forall_nth_error _ _ _ _ Hg2 E1) as Lw. cbn in Lw. apply (nth_error_nth _ _ 0) in E4. apply (nth_error_nth _ _ 0) in E2. rewrite <- E4, <- E2. apply edges_inner; try lia.
  - rewrite Nat2Z.id. intros ->. apply Hb. right. exists i, row, l. auto.
  - rewrite Nat2Z.id. intros ->. apply Hb. right. exists q, r', l'. split. right. rewrite Hk in *. exact Hq. auto.
  - destruct (Nat.lt_ge_cases (j + 3) n) as [Hj|Hj]. lia. destruct Hb. left. exact Hj.
Qed.
(** The flag of the next time step in cells that are not boundary cells. *)
Lemma wetting_flag g dt tfac rows lv gw prev n k m wet gw' prev' g2 dt2 tfac2 rows2 lv2 wet2 gw2 prev2 i j w w' p b :
  rows_shaped n rows -> length rows = k -> all_levels_shaped n k lv -> field_shaped n k gw -> gw_steps dt tfac = Ok (S m) -> seepage g = false -> shorelines_inside rows lv (S m) ->
  groundwater g dt tfac rows lv gw prev = Ok (wet, gw', prev') -> groundwater g2 dt2 tfac2 rows2 lv2 gw' prev' = Ok (wet2, gw2, prev2) ->
  ~ boundary_cell n i j rows (lv O) -> at_cell i j gw w -> at_cell i j gw' w' -> at_cell i j prev' p -> at_cell i j wet2 b -> (b = true <-> w < w').
Proof.
  intros Hr Hk Hl Hg Hst Hsp Hs H H2 Hb Hw Hw' Hp Hbb. rewrite (stored_levels g dt tfac rows lv gw prev n k m wet gw' prev' i j w p) in Hp by assumption. clear p.
  unfold groundwater in H2. destruct (gw_steps dt2 tfac2) as [m2|]; cbn [bind] in H2; [|discriminate].
  assert (Ew : wet2 = wetting gw' prev'). { destruct m2 as [|m2]. apply Ok_inj in H2. injection H2 as <- _ _. reflexivity. destruct (substeps1 g2 _ rows2 (lv2 O) gw'); cbn [bind] in H2; [|discriminate]. destruct (substeps g2 _ rows2 lv2 1 m2 _); cbn [bind] in H2; [|discriminate]. apply Ok_inj in H2. injection H2 as <- _ _. reflexivity. }
  subst wet2. rewrite (wetting_cell _ _ _ _ _ _ _ Hbb Hw' Hp). destruct (Qltb_spec w w'); split; intros; auto; try discriminate; exfalso; lra.
Qed.
Example wetting_flag_case : exists wet gw' prev' wet2 gw2 prev2, groundwater (sand false 0) 1 1 [mk_row ones steep] (fun _ => [sea 1]) [repeat 0 9] [repeat 0 9] = Ok (wet, gw', prev') /\
  groundwater (sand false 0) 1 1 [mk_row ones steep] (fun _ => [sea 1]) gw' prev' = Ok (wet2, gw2, prev2) /\ ~ boundary_cell 9 0 2 [mk_row ones steep] [sea 1] /\ at_cell 0 2 wet2 true /\
  exists v, at_cell 0 2 gw' v /\ 0 < v.
Proof.
  do 6 eexists. split. vm_compute. reflexivity. split. vm_compute. reflexivity. split.
  { intros [H|(q & r & l & _ & Er & El & (H & _))]. lia. destruct q as [|[|q]]; cbn in Er, El; try discriminate. injection Er as <-. injection El as <-. specialize (H 2%nat 10 1 ltac:(lia) eq_refl eq_refl). lra. }
  split. eexists. split; reflexivity. eexists. split. eexists. split; reflexivity. vm_compute. reflexivity.
Qed.
Lemma wetting_refuted : exists g dt tfac rows lv gw prev wet gw' prev' wet2 gw2 prev2 j v, groundwater g dt tfac rows lv [gw] [prev] = Ok (wet, gw', prev') /\ groundwater g dt tfac rows lv gw' prev' = Ok (wet2, gw2, prev2) /\
  at_cell 0 j [gw] 0 /\ at_cell 0 j gw' v /\ 0 < v /\ at_cell 0 j wet2 false.
Proof.
  exists (sand false 0), 1, 1, [mk_row ones steep], (fun _ => [sea 1]), (repeat 0 9), (repeat 0 9). do 6 eexists. exists 1%nat. eexists. split. vm_compute. reflexivity. split. vm_compute. reflexivity.
  split. eexists. split; reflexivity. split. eexists. split; reflexivity. split. vm_compute. reflexivity. eexists. split; reflexivity.
Qed.

(** * C69 *)
Lemma runs g dt tfac rows lv gw prev n k m : rows_shaped n rows -> length rows = k -> all_levels_shaped n k lv -> field_shaped n k gw -> gw_steps dt tfac = Ok m -> shorelines_inside rows lv m ->
  exists wet gw' prev', groundwater g dt tfac rows lv gw prev = Ok (wet, gw', prev').
Proof. apply groundwater_ok. Qed.
Example runs_case : shorelines_inside [mk_row ones steep; mk_row ones flat] (fun _ => [sea 1; sea 1]) 3 /\ rows_shaped 9 [mk_row ones steep; mk_row ones flat].
Proof.
  split; [|repeat constructor]. intros i k r l _ Er El. destruct k as [|[|[|k]]]; cbn in Er, El; try discriminate; injection Er as <-; injection El as <-. exists 1%nat. split. lia. apply steep_shore; try reflexivity; discriminate.
  exists 3%nat. split. lia. split. intros [|[|[|[|j]]]] z s Hj Ez Es; try lia; cbn in Ez, Es; injection Ez as <-; injection Es as <-; discriminate. exists 10, 1. repeat split; reflexivity.
Qed.
Lemma tide_raises g dt tfac rows lv gw prev n k m i row l : (4 <= n)%nat -> rows_shaped n rows -> length rows = k -> all_levels_shaped n k lv -> field_shaped n k gw -> gw_steps dt tfac = Ok (S m) ->
  nth_error rows i = Some row -> nth_error (lv O) i = Some l -> submerged row l \/ dry_at 0 row l \/ dry_at 1 row l -> groundwater g dt tfac rows lv gw prev = Raise ValueError.
Proof.
  intros Hn Hr Hk Hl Hg Hst Er El H. eapply groundwater_raises; try eassumption. destruct (Hl O) as (L1 & L2). pose proof (Forall_nth_error _ _ _ _ Hr Er) as Sr. pose proof (Forall_nth_error _ _ _ _ L2 El) as Sl.
  destruct H as [H|[H|H]]. rewrite (shore_submerged n row l Sr Sl H). lia. rewrite (shore_dry0 row l H). lia. apply shore_dry1, H.
Qed.
Example tide_raises_case : dry_at 1 (mk_row ones steep) (sea (-(3 # 2))) /\ submerged (mk_row ones steep) (sea 11).
Proof.
  split. exists (-1), (-(3 # 2)). repeat split; reflexivity. intros j z s Ez Es. do 9 (destruct j as [|j]; [cbn in Ez, Es; injection Ez as <-; injection Es as <-; discriminate|]). destruct j; discriminate.
Qed.

(** * C70 *)
Example overheight_case : even_spacing 1 (gx (mk_row ones steep)) /\ exists f, overheight 1 7 (gx (mk_row ones steep)) = Ok f /\ same_list f [0; 0; 1 # 4; 1 # 2; 3 # 4; 1; 1 # 2; 0; 0].
Proof.
  split. intros i a b Ea Eb. do 8 (destruct i as [|i]; [cbn in Ea, Eb; injection Ea as <-; injection Eb as <-; reflexivity|]). destruct i as [|[|i]]; discriminate.
  eexists. split. vm_compute. reflexivity. all_eq.
Qed.
Lemma overtopping_refuted : exists g dt tfac row lv gw prev wet gw' prev', even_spacing 1 (gx row) /\ waves g = true /\ K_gw g == 0 /\ Forall unmasked (gmask row) /\ gw_steps dt tfac = Ok 1%nat /\
  groundwater g dt tfac [row] (fun _ => [lv]) [gw] [prev] = Ok (wet, gw', prev') /\ exists j w w', at_cell 0 j [gw] w /\ at_cell 0 j gw' w' /\ w + Cl_gw g < w'.
Proof.
  exists {| static := false; GW_stat := 0; K_gw := 0; ne_gw := 1 # 10; D_gw := 1; Cl_gw := 1 # 10; seepage := false; waves := true |}, 1, 1, (mk_row ones [-2; -2; -1; -1; -1; -(1 # 2); 1; 1; 1]), {| dswl := repeat 0 9; twl := repeat 2 9 |}, (repeat 0 9), (repeat 0 9).
  do 3 eexists. split. apply overheight_case. split. reflexivity. split. reflexivity. split. repeat constructor. split. reflexivity. split. vm_compute. reflexivity. exists 6%nat. do 2 eexists. split. eexists. split; reflexivity. split. eexists. split; reflexivity. vm_compute. reflexivity.
Qed.
Lemma every_substep_refuted : exists g dt tfac row lv gw prev wet gw' prev', even_spacing 1 (gx row) /\ waves g = true /\ K_gw g == 0 /\ Forall unmasked (gmask row) /\
  (exists j, shoreline_at j row lv) /\ (exists j z s, nth_error (gzb row) j = Some z /\ nth_error (twl lv) j = Some s /\ s < z) /\
  groundwater g dt tfac [row] (fun _ => [lv]) [gw] [prev] = Ok (wet, gw', prev') /\ exists j w w', at_cell 0 j [gw] w /\ at_cell 0 j gw' w' /\ w + 2 * Cl_gw g < w'.
Proof.
  exists {| static := false; GW_stat := 0; K_gw := 0; ne_gw := 1 # 10; D_gw := 1; Cl_gw := 1 # 10; seepage := false; waves := true |}, 6, 3, (mk_row ones beach), {| dswl := repeat 0 9; twl := repeat (5 # 2) 9 |}, (repeat 0 9), (repeat 0 9).
  do 3 eexists. split. apply overheight_case. split. reflexivity. split. reflexivity. split. repeat constructor. split. { exists 2%nat. split. intros [|[|[|j]]] z s Hj Ez Es; try lia; cbn in Ez, Es; injection Ez as <-; injection Es as <-; discriminate. exists (1 # 2), 0. repeat split; reflexivity. }
  split. exists 6%nat, 3, (5 # 2). repeat split; reflexivity. split. vm_compute. reflexivity. exists 4%nat. do 2 eexists. split. eexists. split; reflexivity. split. eexists. split; reflexivity. vm_compute. reflexivity.
Qed.

(** * C71 *)
Lemma tide_floods h t row c : process_runup h = true -> runup_nonneg h -> In c (interpolate h t row) -> unmasked (runup_mask c) -> SWL c <= DSWL c /\ SWL c <= TWL c.
Proof.
  intros P N H M. unfold interpolate in H. rewrite P in H. destruct (map (tide_and_waves h t) row) as [|f l] eqn:E; [destruct H|].
  apply in_map_iff in H. destruct H as [c1 [<- H]]. apply in_map_iff in H. destruct H as [c0 [<- H]]. cbn [runup_mask finish SWL DSWL TWL] in *.
  unfold run_up in *. specialize (N (Hs f) (Tp f)). destruct (stockdon h (Hs f) (Tp f)) as [[e s] r]. cbn [fst snd] in N. cbn [runup_mask SWL DSWL TWL] in *.
  rewrite !(unmasked_value _ _ M). split; lra.
Qed.
Lemma tide_floods_case : process_runup tidal = true /\ runup_nonneg tidal /\ exists c, In c (interpolate tidal 3600 [plain (-2) (1, 0); plain (1 # 2) (1, 0)]) /\ unmasked (runup_mask c) /\ zb c == 1 # 2 /\ SWL c == 1 /\ 1 < TWL c.
Proof.
  split. reflexivity. split. intros a b. cbn [stockdon tidal fst snd]. pose proof (qmax_l 0 a). split; [unfold Qdiv; change (/ 10) with (1 # 10)|]; lra. eexists. split. right. left. reflexivity. repeat split; vm_compute; reflexivity.
Qed.
Lemma without_runup h t row : process_runup h = false -> map TWL (interpolate h t row) = map TWL row /\ map DSWL (interpolate h t row) = map DSWL row.
Proof. intros P. unfold interpolate. rewrite P, !map_map. split; apply map_ext; reflexivity. Qed.
Definition tide_only : hydro := {| process_tide := true; tide_file := Some ((0, 0), [(3600, 1); (7200, 0)]); process_wave := false; wave_file := None; gamma := 1 # 2;
  process_runup := false; stockdon := fun _ _ => (0, 0, 0) |}.
Lemma tide_refuted : exists h t row c, process_tide h = true /\ In c (interpolate h t row) /\ SWL c == zb c + (1 # 2) /\ TWL c < zb c /\ DSWL c < zb c.
Proof.
  exists tide_only, 3600, [plain (-2) (1, 0); plain (1 # 2) (1, 0)]. eexists. split. reflexivity. split. right. left. reflexivity. repeat split; vm_compute; reflexivity.
Qed.
Lemma ebb_refuted : exists h t row c, process_tide h = true /\ In c (interpolate h t row) /\ SWL c == zb c - (1 # 2) /\ zb c < TWL c.
Proof.
  exists {| process_tide := true; tide_file := Some ((0, 0), [(3600, -1); (7200, 0)]); process_wave := false; wave_file := None; gamma := 1 # 2; process_runup := false; stockdon := fun _ _ => (0, 0, 0) |},
    3600, [plain (-2) (1, 0); plain (- (1 # 2)) (1, 0)]. eexists. split. reflexivity. split. right. left. reflexivity. repeat split; vm_compute; reflexivity.
Qed.
