From Verif Require Import Base Num Time_Model Rotate_Model Rotate_Spec.
From Coq Require Import Reals Lra.
Open Scope R_scope.

Lemma radians_opp a : radians (- a) = - radians a.
Proof. unfold radians. field. Qed.
Lemma trig1 a : cos a * cos a + sin a * sin a = 1.
Proof. pose proof (sin2_cos2 a) as H. unfold Rsqr in H. lra. Qed.

Lemma rotate1_back a o v : rotate1 (- a) o (rotate1 a o v) = v.
Proof.
  unfold rotate1. cbn [fst snd]. rewrite radians_opp, cos_neg, sin_neg. pose proof (trig1 (radians a)) as H.
  set (c := cos (radians a)) in *. set (z := sin (radians a)) in *. destruct v as [x y], o as [p r]; cbn [fst snd] in *.
  f_equal.
  - transitivity ((c * c + z * z) * (x - p) + p); [ring|rewrite H; ring].
  - transitivity ((c * c + z * z) * (y - r) + r); [ring|rewrite H; ring].
Qed.
Lemma rotate_back l a o : rotate (rotate l a o) (- a) o = l.
Proof. unfold rotate. rewrite map_map. rewrite <- (map_id l) at 2. apply map_ext. intros v. apply rotate1_back. Qed.

Lemma rotate1_dist a o v w : dist2 (rotate1 a o v) (rotate1 a o w) = dist2 v w.
Proof.
  unfold rotate1, dist2. cbn [fst snd]. pose proof (trig1 (radians a)) as H.
  set (c := cos (radians a)) in *. set (z := sin (radians a)) in *.
  transitivity ((c * c + z * z) * ((fst v - fst w) * (fst v - fst w) + (snd v - snd w) * (snd v - snd w))); [ring|].
  rewrite H. ring.
Qed.
Lemma rotate1_inner a v w : inner (rotate1 a (0, 0) v) (rotate1 a (0, 0) w) = inner v w.
Proof.
  unfold rotate1, inner. cbn [fst snd]. pose proof (trig1 (radians a)) as H.
  set (c := cos (radians a)) in *. set (z := sin (radians a)) in *.
  transitivity ((c * c + z * z) * (fst v * fst w + snd v * snd w)); [ring|]. rewrite H. ring.
Qed.

Lemma rsum_rotate_x a o l : rsum (map fst (rotate l a o)) =
  (rsum (map fst l) - INR (length l) * fst o) * cos (radians a) + (rsum (map snd l) - INR (length l) * snd o) * sin (radians a)
  + INR (length l) * fst o.
Proof.
  induction l as [|v l IH]; [cbn; ring|]. cbn [rotate map]. unfold rsum in *. cbn [fold_right length].
  rewrite S_INR. unfold rotate in IH. rewrite IH. unfold rotate1. cbn [fst snd]. ring.
Qed.
Lemma rsum_rotate_y a o l : rsum (map snd (rotate l a o)) =
  (rsum (map fst l) - INR (length l) * fst o) * - sin (radians a) + (rsum (map snd l) - INR (length l) * snd o) * cos (radians a)
  + INR (length l) * snd o.
Proof.
  induction l as [|v l IH]; [cbn; ring|]. cbn [rotate map]. unfold rsum in *. cbn [fold_right length].
  rewrite S_INR. unfold rotate in IH. rewrite IH. unfold rotate1. cbn [fst snd]. ring.
Qed.
Definition centre (l : cells) : R * R := (rmean (map fst l), rmean (map snd l)).
Lemma centre_rotate a l : l <> [] -> centre (rotate l a (centre l)) = centre l.
Proof.
  intros Hl. unfold centre at 1. unfold rmean.
  assert (Hn : INR (length l) <> 0). { apply not_0_INR. destruct l; [contradiction|discriminate]. }
  rewrite rsum_rotate_x, rsum_rotate_y, !map_length. unfold rotate. rewrite map_length. unfold centre, rmean. cbn [fst snd].
  rewrite !map_length. f_equal; field; exact Hn.
Qed.
Lemma grid_back a l : rotate (rotate l a (centre l)) (- a) (centre (rotate l a (centre l))) = l.
Proof.
  destruct l as [|v l]; [reflexivity|]. rewrite centre_rotate by discriminate. apply rotate_back.
Qed.

Lemma map_rotate_back a (l : list cells) : map (fun x => rotate x (- a) (0, 0)) (map (fun x => rotate x a (0, 0)) l) = l.
Proof. rewrite map_map. rewrite <- (map_id l) at 2. apply map_ext. intros x. apply rotate_back. Qed.
Lemma udir_back a (l : list R) : map (fun d => d + - a) (map (fun d => d + a) l) = l.
Proof. rewrite map_map. rewrite <- (map_id l) at 2. apply map_ext. intros x. ring. Qed.

Lemma grid_rotate_back a st : grid_rotate (- a) (grid_rotate a st) = st.
Proof.
  destruct st as [g1 g2 g3 g4 g5 g6 g7 g8 g9]. unfold grid_rotate. cbn [xy tau tau0 ustar ustar0 uw q us udir].
  rewrite !rotate_back, map_rotate_back, udir_back. f_equal. apply (grid_back a g1).
Qed.

Lemma xy_events alpha f ev : keeps_grid f -> ~ In RotateForward ev -> ~ In RotateBack ev ->
  forall st, xy (apply_events alpha f ev st) = xy st.
Proof.
  intros Hf. induction ev as [|e ev IH]; intros H1 H2 st; [reflexivity|]. cbn [apply_events fold_left].
  unfold apply_events in IH. rewrite IH; [|intros H; apply H1; now right|intros H; apply H2; now right].
  assert (G : xy (f e st) = xy st) by apply Hf.
  destruct e; try exact G; [exfalso; apply H1; now left|exfalso; apply H2; now left].
Qed.
Lemma idle_events alpha f ev : idle f -> ~ In RotateForward ev -> ~ In RotateBack ev ->
  forall st, apply_events alpha f ev st = st.
Proof.
  intros Hf. induction ev as [|e ev IH]; intros H1 H2 st; [reflexivity|]. cbn [apply_events fold_left].
  unfold apply_events in IH. rewrite IH; [|intros H; apply H1; now right|intros H; apply H2; now right].
  assert (G : f e st = st) by apply Hf.
  destruct e; try exact G; [exfalso; apply H1; now left|exfalso; apply H2; now left].
Qed.

(** The trace of a completed and of an aborted update. *)
Lemma update_trace p ob req c c' ev : update p ob req c = Ok (c', ev) ->
  let go := fst (fst (set_timestep p ob (t c) (dt c) req)) in
  exists mid, ~ In RotateForward mid /\ ~ In RotateBack mid /\
  ev = WindInterpolate :: RotateForward :: mid ++ (if go then [RotateBack] else []).
Proof.
  unfold update. destruct (set_timestep p ob (t c) (dt c) req) as [[go now] d]. cbn [fst]. destruct go; cbn [negb].
  - assert (G : forall c1 (l : list event), ~ In RotateForward l -> ~ In RotateBack l ->
      Ok (c1, before_timestep p ob ++ l ++ [RotateBack]) = Ok (c', ev) -> exists mid, ~ In RotateForward mid /\ ~ In RotateBack mid /\
      ev = WindInterpolate :: RotateForward :: mid ++ [RotateBack]).
    { intros c1 l L1 L2 H. apply Ok_inj in H. injection H as _ <-. unfold before_timestep. cbn [app].
      exists ((when (negb (o_calm ob)) [WindShear] ++ when (p_fences p) [FenceShear] ++ when (p_vegetation p) [VegetationShear]) ++ l).
      assert (D : forall e, In e (when (negb (o_calm ob)) [WindShear] ++ when (p_fences p) [FenceShear] ++ when (p_vegetation p) [VegetationShear]) ->
        e <> RotateForward /\ e <> RotateBack).
      { destruct (o_calm ob), (p_fences p), (p_vegetation p); cbn; intros e He;
          repeat (destruct He as [<-|He]; [split; discriminate|]); destruct He. }
      split; [|split].
      - intros Hi. apply in_app_or in Hi. destruct Hi as [Hi|Hi]; [now apply D in Hi|now apply L1].
      - intros Hi. apply in_app_or in Hi. destruct Hi as [Hi|Hi]; [now apply D in Hi|now apply L2].
      - now rewrite <- !app_assoc. }
    assert (L : forall e, In e ([HydroInterpolate; HydroUpdate; MixTopLayer]
            ++ when (negb (o_calm ob)) [Threshold; Equilibrium; Solve; BedUpdate; AngleOfRepose; Avalanche; WetBedReset; AverageChange]
            ++ when (p_dune_erosion p) [DuneErosion; AngleOfRepose; Avalanche] ++ when (p_vegetation p) [Germinate; Grow]) ->
            e <> RotateForward /\ e <> RotateBack).
    { destruct (o_calm ob), (p_dune_erosion p), (p_vegetation p); cbn; intros e He;
        repeat (destruct He as [<-|He]; [split; discriminate|]); destruct He. }
    intros H. apply (G {| t := (now + d * p_accfac p)%Q; dt := d; count := S (count c); has_dt_array := has_dt_array c |}
      ([HydroInterpolate; HydroUpdate; MixTopLayer]
            ++ when (negb (o_calm ob)) [Threshold; Equilibrium; Solve; BedUpdate; AngleOfRepose; Avalanche; WetBedReset; AverageChange]
            ++ when (p_dune_erosion p) [DuneErosion; AngleOfRepose; Avalanche] ++ when (p_vegetation p) [Germinate; Grow])).
    3:{ clear G L. destruct (p_scheme p), (o_calm ob); try discriminate H; rewrite <- H; rewrite <- !app_assoc; reflexivity. }
    + intros Hi. now apply L in Hi.
    + intros Hi. now apply L in Hi.
  - intros H. apply Ok_inj in H. injection H as _ <-. unfold before_timestep. cbn [app]. eexists. rewrite app_nil_r.
    split; [|split; [|reflexivity]]; destruct (o_calm ob), (p_fences p), (p_vegetation p); cbn; intros H;
      repeat (destruct H as [H|H]; [discriminate|]); exact H.
Qed.

Lemma completed_restores p ob req c c' ev alpha f st : update p ob req c = Ok (c', ev) -> count c' = S (count c) -> keeps_grid f ->
  xy (apply_events alpha f ev st) = xy st.
Proof.
  intros H Hc Hf. pose proof (update_trace _ _ _ _ _ _ H) as [mid [M1 [M2 M3]]].
  assert (Hg : fst (fst (set_timestep p ob (t c) (dt c) req)) = true).
  { unfold update in H. destruct (set_timestep p ob (t c) (dt c) req) as [[go now] d]. destruct go; [reflexivity|]. cbn [negb] in H.
    apply Ok_inj in H. injection H as <- _. cbn [count] in Hc. exfalso. lia. }
  rewrite Hg in M3. subst ev. unfold apply_events. cbn [fold_left]. rewrite fold_left_app. cbn [fold_left apply_event].
  fold (apply_events alpha f mid (grid_rotate alpha (f WindInterpolate st))).
  set (s1 := f WindInterpolate st). assert (E1 : xy s1 = xy st) by apply Hf.
  pose proof (xy_events alpha f mid Hf M1 M2 (grid_rotate alpha s1)) as E2.
  set (s2 := apply_events alpha f mid (grid_rotate alpha s1)) in *. unfold grid_rotate at 1. cbn [xy]. rewrite E2.
  unfold grid_rotate. cbn [xy]. rewrite E1. apply (grid_back alpha (xy st)).
Qed.
Lemma completed_identity p ob req c c' ev alpha f st : update p ob req c = Ok (c', ev) -> count c' = S (count c) -> idle f ->
  apply_events alpha f ev st = st.
Proof.
  intros H Hc Hf. pose proof (update_trace _ _ _ _ _ _ H) as [mid [M1 [M2 M3]]].
  assert (Hg : fst (fst (set_timestep p ob (t c) (dt c) req)) = true).
  { unfold update in H. destruct (set_timestep p ob (t c) (dt c) req) as [[go now] d]. destruct go; [reflexivity|]. cbn [negb] in H.
    apply Ok_inj in H. injection H as <- _. cbn [count] in Hc. exfalso. lia. }
  rewrite Hg in M3. subst ev. unfold apply_events. cbn [fold_left]. rewrite fold_left_app. cbn [fold_left apply_event].
  fold (apply_events alpha f mid (grid_rotate alpha (f WindInterpolate st))). rewrite Hf, idle_events by assumption.
  apply grid_rotate_back.
Qed.
(** An aborted update leaves the grid rotated. *)
Lemma aborted_rotated p ob req c c' ev alpha f st : update p ob req c = Ok (c', ev) -> count c' = count c -> keeps_grid f ->
  xy (apply_events alpha f ev st) = xy (grid_rotate alpha st).
Proof.
  intros H Hc Hf. pose proof (update_trace _ _ _ _ _ _ H) as [mid [M1 [M2 M3]]].
  assert (Hg : fst (fst (set_timestep p ob (t c) (dt c) req)) = false).
  { unfold update in H. destruct (set_timestep p ob (t c) (dt c) req) as [[go now] d]. destruct go; [|reflexivity]. cbn [negb] in H.
    destruct (p_scheme p), (o_calm ob); try discriminate H; apply Ok_inj in H; injection H as <- _; cbn [count] in Hc; exfalso; lia. }
  rewrite Hg, app_nil_r in M3. subst ev. unfold apply_events. cbn [fold_left apply_event].
  fold (apply_events alpha f mid (grid_rotate alpha (f WindInterpolate st))).
  rewrite (xy_events alpha f mid Hf M1 M2). unfold grid_rotate. cbn [xy]. now rewrite Hf.
Qed.
(** Vectors turn with the grid. *)
Lemma rotate1_sub a o p r v : inner (rotate1 a (0, 0) v) (sub (rotate1 a o p) (rotate1 a o r)) = inner v (sub p r).
Proof.
  rewrite <- (rotate1_inner a v (sub p r)). f_equal. unfold rotate1, sub. cbn [fst snd]. f_equal; ring.
Qed.
Lemma vectors_follow a st k i j1 j2 l v p1 p2 :
  nth_error (vector_fields st) k = Some l -> nth_error l i = Some v ->
  nth_error (xy st) j1 = Some p1 -> nth_error (xy st) j2 = Some p2 ->
  exists l' v' p1' p2', nth_error (vector_fields (grid_rotate a st)) k = Some l' /\ nth_error l' i = Some v' /\
    nth_error (xy (grid_rotate a st)) j1 = Some p1' /\ nth_error (xy (grid_rotate a st)) j2 = Some p2' /\
    inner v' (sub p1' p2') = inner v (sub p1 p2) /\ inner v' v' = inner v v.
Proof.
  intros Hl Hv H1 H2.
  assert (E : vector_fields (grid_rotate a st) = map (fun l => rotate l a (0, 0)) (vector_fields st)).
  { unfold vector_fields, grid_rotate. cbn [tau tau0 ustar ustar0 uw q app map]. reflexivity. }
  exists (rotate l a (0, 0)), (rotate1 a (0, 0) v), (rotate1 a (centre (xy st)) p1), (rotate1 a (centre (xy st)) p2).
  split; [rewrite E; now apply map_nth_error|]. split; [now apply map_nth_error|].
  split; [unfold grid_rotate; cbn [xy]; now apply map_nth_error|]. split; [unfold grid_rotate; cbn [xy]; now apply map_nth_error|].
  split; [apply rotate1_sub|apply rotate1_inner].
Qed.
Lemma direction_follows a d : rotate1 a (0, 0) (from_direction d) = from_direction (d + a).
Proof.
  unfold rotate1, from_direction. cbn [fst snd].
  replace (radians (d + a)) with (radians d + radians a) by (unfold radians; field).
  rewrite sin_plus, cos_plus. f_equal; ring.
Qed.
Lemma direction_turns a st i d : nth_error (udir st) i = Some d ->
  exists d', nth_error (udir (grid_rotate a st)) i = Some d' /\ from_direction d' = rotate1 a (0, 0) (from_direction d).
Proof.
  intros H. exists (d + a). split; [unfold grid_rotate; cbn [udir]; now apply (map_nth_error (fun x => x + a))|].
  symmetry. apply direction_follows.
Qed.
