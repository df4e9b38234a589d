(** Concrete cases and refutations for the bed. *)
From Verif Require Import Base Num Utils_Model Utils_Spec Utils_Proofs Utils_Cases Bed_Model Bed_Spec Bed_Proofs.
Open Scope Q_scope.

(** *** C23 *)
Definition c23_cell : mixcell := {| thlyr := [1; 1; 1]; mixmass := [[4; 0]; [0; 4]; [2; 2]]; hsmix := 4 |}.
Lemma shaped_check nf m : forallb (fun l => Nat.eqb (length l) nf) m = true -> shaped nf m.
Proof. intros H l Hl. rewrite forallb_forall in H. specialize (H l Hl). now apply Nat.eqb_eq. Qed.
Lemma nonneg_check m : forallb (forallb (Qle_bool 0)) m = true -> nonneg_bed m.
Proof.
  intros H l Hl x Hx. rewrite forallb_forall in H. specialize (H l Hl). rewrite forallb_forall in H. specialize (H x Hx).
  now apply Qle_bool_iff.
Qed.
Lemma c23_case : length (thlyr c23_cell) = length (mixmass c23_cell) /\ shaped 2 (mixmass c23_cell) /\ nonneg_bed (mixmass c23_cell) /\
  all_nonneg (thlyr c23_cell) /\ any_disturbed (1 # 2) [c23_cell] = true /\
  map (map Qred) (mix_cell true 2 (1 # 2) c23_cell) = [[2; 2]; [2; 2]; [2; 2]] /\
  (0 < dod (1 # 2) c23_cell /\ dod (1 # 2) c23_cell <= qsum (thlyr c23_cell) /\ bottom 1 (thlyr c23_cell) <= dod (1 # 2) c23_cell /\
  dod (1 # 2) c23_cell < bottom 2 (thlyr c23_cell)).
Proof.
  split; [reflexivity|]. split; [now apply shaped_check|]. split; [now apply nonneg_check|]. split; [nonneg|]. split; [reflexivity|]. split; [reflexivity|].
  split; [reflexivity|]. split; [vm_compute; congruence|]. split; [vm_compute; congruence|reflexivity].
Qed.
Lemma mix_grid process nf fac cells i c : nth_error cells i = Some c -> length (thlyr c) = length (mixmass c) -> shaped nf (mixmass c) ->
  nonneg_bed (mixmass c) -> all_nonneg (thlyr c) ->
  exists m', nth_error (mixtoplayer process nf fac cells) i = Some m' /\
    (forall k, fraction_mass k m' == fraction_mass k (mixmass c)) /\ nonneg_bed m' /\
    (forall M, (forall l, In l (mixmass c) -> qsum l == M) -> forall l, In l m' -> qsum l == M) /\
    (forall j l, nth_error (mixmass c) j = Some l -> fac * hsmix c < bottom j (thlyr c) \/ fac * hsmix c <= 0 \/ process = false ->
       exists l', nth_error m' j = Some l' /\ same l' l) /\
    (process = true -> 0 < fac * hsmix c -> fac * hsmix c <= qsum (thlyr c) ->
       forall a b la lb, bottom a (thlyr c) <= fac * hsmix c -> bottom b (thlyr c) <= fac * hsmix c ->
       nth_error (mixmass c) a = Some la -> nth_error (mixmass c) b = Some lb ->
       exists ma mb, nth_error m' a = Some ma /\ nth_error m' b = Some mb /\ same ma mb).
Proof.
  intros Hc L S N Ht. unfold mixtoplayer. destruct process.
  - exists (mix_cell (any_disturbed fac cells) nf fac c). split; [now apply map_nth_error|]. split; [intros k; now apply mix_conserves|].
    split; [now apply mix_nonneg|]. split; [intros M HM; now apply mix_layer_masses|]. split.
    + intros j l Hl Hd. apply mix_below; try assumption. unfold dod. destruct Hd as [Hd|[Hd|Hd]]; [tauto|tauto|discriminate].
    + intros _ H0 H1 a b la lb Ha Hb Ea Eb. fold (dod fac c) in *.
      assert (Hany : any_disturbed fac cells = true).
      { apply (existsb_nth _ cells i c Hc). apply existsb_exists. exists true. split; [|reflexivity].
        assert (Hlt : (a < length (thlyr c))%nat) by (rewrite L; apply nth_error_Some; congruence).
        rewrite <- (proj2 (disturbed_nth (dod fac c) (thlyr c) a Hlt) (conj Ha H0)). apply nth_In. now rewrite disturbed_length. }
      rewrite Hany. now apply (mix_uniform nf fac c a b la lb).
  - exists (mixmass c). split; [now apply map_nth_error|]. split; [reflexivity|]. split; [exact N|]. split; [tauto|]. split; [|discriminate].
    intros j l Hl _. exists l. split; [exact Hl|apply same_refl].
Qed.

(** *** C24 *)
Lemma c24_case : length [1 # 4; 3 # 4] = 2%nat /\ ~ qsum [1 # 4; 3 # 4] == 0 /\
  (exists b, initialize 2650 (2 # 5) 2 9 0 [1 # 100; 1 # 50] (Dist1 false [1 # 4; 3 # 4]) None = Ok b /\
    map (map Qred) b = [[159 # 40; 477 # 40]; [159 # 20; 477 # 20]]).
Proof. split; [reflexivity|]. split; [intros H; vm_compute in H; discriminate|]. eexists. split; [vm_compute; reflexivity|]. vm_compute. reflexivity. Qed.
Lemma c24_layered_case : length [[1; 3]; [2; 2]] = length [1 # 100; 1 # 50] /\
  (forall r, In r [[1; 3]; [2; 2]] -> length r = 2%nat /\ ~ qsum r == 0) /\
  (exists b, initialize 2650 (2 # 5) 2 9 0 [1 # 100; 1 # 50] (Dist2 false [[1; 3]; [2; 2]]) None = Ok b /\
    map (map Qred) b = [[159 # 40; 477 # 40]; [159 # 10; 159 # 10]]).
Proof.
  split; [reflexivity|]. split; [intros r [<-|[<-|[]]]; (split; [reflexivity|intros H; vm_compute in H; discriminate])|].
  eexists. split; [vm_compute; reflexivity|]. vm_compute. reflexivity.
Qed.
Lemma c24_file_ignored : exists rhog por th d b b', length d = 1%nat /\ shaped 1 b /\ length b = length th /\
  initialize rhog por 1 9 0 th (Dist1 true d) (Some b) = Ok b' /\ ~ same (layer_masses b') (layer_masses b).
Proof.
  exists 2650, (2 # 5), [1 # 100], [1], [[5]]. eexists. split; [reflexivity|]. split; [now apply shaped_check|]. split; [reflexivity|].
  split; [vm_compute; reflexivity|]. intros H. inversion H as [|? ? ? ? E _]; subst. vm_compute in E. discriminate.
Qed.
(** A distribution that is longer than the list of grain sizes loses mass, a shorter one raises. *)
Lemma c24_longer : exists rhog por th d b, qsum d == 1 /\ initialize rhog por 1 9 0 [th] (Dist1 false d) None = Ok b /\
  ~ qsum (layer_masses b) == rhog * (1 - por) * th.
Proof.
  exists 2650, (2 # 5), (1 # 100), [1 # 2; 1 # 2]. eexists. split; [reflexivity|]. split; [vm_compute; reflexivity|]. intros H. vm_compute in H. discriminate.
Qed.
Lemma c24_shorter rhog por nf nx x t th isint d bedcomp : (length d < nf)%nat -> isint = true \/ bedcomp = None ->
  initialize rhog por nf nx x (t :: th) (Dist1 isint d) bedcomp = Raise IndexError.
Proof.
  intros H Hb. assert (G : mapres (fun t => fill_layer rhog por t nf (divided d)) (t :: th) = Raise IndexError).
  { cbn [mapres]. unfold fill_layer at 1. unfold divided. rewrite map_length. apply Nat.ltb_lt in H. rewrite H. reflexivity. }
  unfold initialize. destruct isint; [exact G|]. destruct Hb as [Hb|Hb]; [discriminate|]. rewrite Hb. exact G.
Qed.

(** *** C25, C26 *)
Definition c25_params : bedparams := {| max_error := 1 # 1000000; rhog := 2650; porosity := 2 # 5; process_bedupdate := true; process_tide := true |}.
Definition c25_cell : bedcell := {| mass := [[3; 1]; [2; 2]; [1; 3]]; pickup := [2; -1 # 1]; zb := 5; zs := 6 |}.
Lemma sound_check nf c top rest : length (pickup c) = nf -> shaped nf (mass c) -> nonneg_bed (mass c) -> mass c = top :: rest -> 0 < qsum top ->
  (forall k, nth k (pickup c) 0 <= nth k top 0) -> sound_cell nf c.
Proof. intros H1 H2 H3 H4 H5 H6. split; [exact H1|]. split; [exact H2|]. split; [exact H3|]. exists top, rest. auto. Qed.
Ltac nths := let k := fresh "k" in intros k; do 3 (destruct k as [|k]; [vm_compute; congruence|]); cbn; destruct k; cbn; lra.
Lemma c25_case : nth_error [(c25_cell, [1 # 2; 1 # 2])] 0 = Some (c25_cell, [1 # 2; 1 # 2]) /\ sound_cell 2 c25_cell /\ distribution [1 # 2; 1 # 2] /\
  (forall l, In l (mass c25_cell) -> 0 < qsum l /\ qabs (net_deposit (pickup c25_cell)) <= qsum l) /\
  net_deposit (pickup c25_cell) < top_mass (mass c25_cell) /\
  map (fun c => map (map Qred) (mass c)) (update c25_params [(c25_cell, [1 # 2; 1 # 2])]) = [[[3 # 2; 5 # 2]; [7 # 4; 9 # 4]; [5 # 4; 11 # 4]]] /\
  map (fun c => Qred (zb c)) (update c25_params [(c25_cell, [1 # 2; 1 # 2])]) = [7949 # 1590].
Proof.
  split; [reflexivity|]. split.
  { apply (sound_check 2 c25_cell [3; 1] [[2; 2]; [1; 3]]); [reflexivity|now apply shaped_check|now apply nonneg_check|reflexivity|reflexivity|nths]. }
  split; [split; [nonneg|reflexivity]|]. split; [intros l [<-|[<-|[<-|[]]]]; (split; [reflexivity|vm_compute; congruence])|].
  split; [reflexivity|]. split; vm_compute; reflexivity.
Qed.
(** A deposit as large as the top layer: the layer doubles. *)
Definition c25_equal : bedcell := {| mass := [[1; 1]; [1; 1]]; pickup := [-1 # 1; -1 # 1]; zb := 0; zs := 0 |}.
Lemma c25_refuted : exists p nf cells i c base c', nth_error cells i = Some (c, base) /\ sound_cell nf c /\ length base = nf /\ distribution base /\
  (forall l, In l (mass c) -> 0 < qsum l /\ qabs (net_deposit (pickup c)) <= qsum l) /\ nth_error (update p cells) i = Some c' /\
  ~ same (layer_masses (mass c')) (layer_masses (mass c)).
Proof.
  exists c25_params, 2%nat, [(c25_equal, [1; 0])], 0%nat, c25_equal, [1; 0]. eexists. split; [reflexivity|]. split.
  { apply (sound_check 2 c25_equal [1; 1] [[1; 1]]); [reflexivity|now apply shaped_check|now apply nonneg_check|reflexivity|reflexivity|nths]. }
  split; [reflexivity|]. split; [split; [nonneg|reflexivity]|]. split; [intros l [<-|[<-|[]]]; (split; [reflexivity|vm_compute; congruence])|].
  split; [vm_compute; reflexivity|]. intros H. inversion H as [|? ? ? ? E _]; subst. vm_compute in E. discriminate.
Qed.
(** Layers of different thickness: erosion empties a thin layer below zero. *)
Definition c25_thin : bedcell := {| mass := [[4; 0]; [1; 0]; [0; 4]]; pickup := [2; 0]; zb := 0; zs := 0 |}.
Lemma c25_thin_refuted : exists p nf cells i c base c', nth_error cells i = Some (c, base) /\ sound_cell nf c /\ length base = nf /\ distribution base /\
  (forall l, In l (mass c) -> 0 < qsum l) /\ net_deposit (pickup c) < top_mass (mass c) /\ nth_error (update p cells) i = Some c' /\ ~ nonneg_bed (mass c').
Proof.
  exists c25_params, 2%nat, [(c25_thin, [0; 1])], 0%nat, c25_thin, [0; 1]. eexists. split; [reflexivity|]. split.
  { apply (sound_check 2 c25_thin [4; 0] [[1; 0]; [0; 4]]); [reflexivity|now apply shaped_check|now apply nonneg_check|reflexivity|reflexivity|nths]. }
  split; [reflexivity|]. split; [split; [nonneg|reflexivity]|]. split; [intros l [<-|[<-|[<-|[]]]]; reflexivity|].
  split; [reflexivity|]. split; [vm_compute; reflexivity|]. intros H. cbn [mass] in H. specialize (H _ (or_intror (or_introl eq_refl))).
  specialize (H _ (or_introl eq_refl)). vm_compute in H. apply H. reflexivity.
Qed.
Definition c26_cell : bedcell := {| mass := [[1; 1]; [1; 1]]; pickup := [-3 # 1; -2 # 1]; zb := 7; zs := 8 |}.
Lemma c26_sound : sound_cell 2 c26_cell.
Proof. apply (sound_check 2 c26_cell [1; 1] [[1; 1]]); [reflexivity|now apply shaped_check|now apply nonneg_check|reflexivity|reflexivity|nths]. Qed.
Lemma c26_refuted : exists p nf cells i c base c', nth_error cells i = Some (c, base) /\ sound_cell nf c /\ length base = nf /\ distribution base /\
  process_bedupdate p = true /\ nth_error (update p cells) i = Some c' /\ 0 < net_deposit (pickup c) /\ zb c' == zb c /\
  ~ net_deposit (pickup c') == net_deposit (pickup c).
Proof.
  exists c25_params, 2%nat, [(c26_cell, [1; 0])], 0%nat, c26_cell, [1; 0]. eexists. split; [reflexivity|]. split; [exact c26_sound|].
  split; [reflexivity|]. split; [split; [nonneg|reflexivity]|]. split; [reflexivity|]. split; [vm_compute; reflexivity|]. split; [reflexivity|].
  split; [reflexivity|]. intros H. vm_compute in H. discriminate.
Qed.
Lemma c26_discard_case : nth_error [(c26_cell, [1; 0])] 0 = Some (c26_cell, [1; 0]) /\ sound_cell 2 c26_cell /\
  top_mass (mass c26_cell) < net_deposit (pickup c26_cell) /\ (forall l, In l (mass c26_cell) -> qsum l == top_mass (mass c26_cell)).
Proof. split; [reflexivity|]. split; [exact c26_sound|]. split; [reflexivity|]. intros l [<-|[<-|[]]]; reflexivity. Qed.
(** What prevent_negative_mass hands on: pickup per fraction. *)
Lemma c26_preserved m dm pickup top rest : m = top :: rest -> length top = length pickup -> dm == net_deposit pickup -> all_nonneg top ->
  (forall k, nth k pickup 0 <= nth k top 0) -> 0 < qsum top -> dm < qsum top -> forall any,
  exists top1 dm' p', prevent2 any (fst (fst (prevent1 m dm pickup))) (snd (fst (prevent1 m dm pickup))) (snd (prevent1 m dm pickup)) = (top1 :: rest, dm', p') /\
    dm' == net_deposit pickup /\ net_deposit p' == net_deposit pickup /\ qsum top1 == qsum top /\ all_nonneg top1 /\
    (forall k, nth k top1 0 - nth k p' 0 == nth k top 0 - nth k pickup 0) /\ (0 < dm -> forall k, nth k p' 0 <= 0).
Proof.
  intros -> L E N Hp Ht Hlt any. unfold net_deposit in *. destruct (prevent1_spec top rest dm pickup L E N Hp) as [top1 [dm1 [p1 [E1 [L1 [Lp1 [D1 [D1s [T1 [K1 [N1 [P1 Q1]]]]]]]]]]]].
  rewrite E1. cbn [fst snd]. rewrite prevent2_small by (cbn [top_mass]; lra).
  exists top1, dm1, p1. split; [reflexivity|]. split; [lra|]. split; [lra|]. split; [exact T1|]. split; [exact N1|]. split; [exact K1|exact P1].
Qed.
Lemma c26_preserved_case : length [3; 1] = length [2; -3 # 1] /\ all_nonneg [3; 1] /\ (forall k, nth k [2; -3 # 1] 0 <= nth k [3; 1] 0) /\
  net_deposit [2; -3 # 1] < qsum [3; 1] /\ map Qred (snd (prevent1 [[3; 1]] 1 [2; -3 # 1])) = [0; -1 # 1] /\
  map (map Qred) (fst (fst (prevent1 [[3; 1]] 1 [2; -3 # 1]))) = [[1; 3]].
Proof. split; [reflexivity|]. split; [nonneg|]. split; [nths|]. split; [reflexivity|]. split; vm_compute; reflexivity. Qed.

(** *** C27 *)
Lemma c27_refuted : exists dt T zs zb zb0 z, 0 < T /\ 0 < dt /\ wet_bed_reset true dt T zs zb zb0 = Ok z /\ ~ towards zb zb0 z.
Proof.
  exists 3, 1, 10, 1, 2. eexists. split; [lra|]. split; [lra|]. split; [vm_compute; reflexivity|]. intros [H|H]; vm_compute in H; destruct H as [H1 H2]; try (now apply H1); now apply H2.
Qed.
Lemma c27_case : resets 10 2 [(5, 9); (5, 9); (2, 0)] 0 = Ok (0 + (2 - 0) * (5 / 10) + (2 - (0 + (2 - 0) * (5 / 10))) * (5 / 10)) /\
  (forall s, In s [(5, 9); (5, 9); (2, 0)] -> 0 <= fst s /\ fst s <= 10).
Proof. split; [vm_compute; reflexivity|]. intros s [<-|[<-|[<-|[]]]]; cbn; split; lra. Qed.
Lemma qpow_bound x n : 0 <= x -> x <= 1 -> 0 <= qpow (1 - x) n /\ qpow (1 - x) n * (1 + inject_Z (Z.of_nat n) * x) <= 1.
Proof.
  intros H0 H1. induction n as [|n [I1 I2]]; [cbn [qpow Z.of_nat]; change (inject_Z 0) with 0; split; lra|].
  cbn [qpow]. rewrite Nat2Z.inj_succ, <- Z.add_1_l, inject_Z_plus. change (inject_Z 1) with 1. set (N := inject_Z (Z.of_nat n)) in *.
  assert (HN : 0 <= N) by (unfold N; rewrite <- (Zle_Qle 0); lia).
  split; [apply Qmult_le_0_compat; lra|].
  assert (Hx : 0 <= (1 + N) * (x * x)) by (apply Qmult_le_0_compat; [lra|apply Qmult_le_0_compat; lra]).
  assert (E : (1 - x) * (1 + (1 + N) * x) == 1 + N * x - (1 + N) * (x * x)) by ring.
  assert (Hq : qpow (1 - x) n * ((1 - x) * (1 + (1 + N) * x)) <= qpow (1 - x) n * (1 + N * x)).
  { rewrite !(Qmult_comm (qpow (1 - x) n)). apply Qmult_le_compat_r; [lra|exact I1]. }
  lra.
Qed.
(** The distance to the initial bed after n resets under water. *)
Lemma c27_converges T zb0 dt steps zb z : 0 < T -> 0 <= dt -> dt <= T -> (forall s, In s steps -> fst s = dt) -> resets T zb0 steps zb = Ok z ->
  (forall n zb', resets T zb0 (firstn n steps) zb = Ok zb' -> forall s, nth_error steps n = Some s -> zb' + (1 # 100) < snd s) ->
  qabs (z - zb0) * (1 + inject_Z (Z.of_nat (length steps)) * (dt / T)) <= qabs (zb - zb0).
Proof.
  intros HT H0 H1 Hs Hr Hw. assert (HT' : ~ T == 0) by lra. pose proof (resets_factor T zb0 dt HT' steps zb z Hs Hr Hw) as E.
  assert (F0 : 0 <= dt / T) by (now apply qdiv_nonneg). assert (F1 : dt / T <= 1) by (apply Qle_shift_div_r; lra).
  destruct (qpow_bound (dt / T) (length steps) F0 F1) as [B1 B2]. set (q := qpow (1 - dt / T) (length steps)) in *.
  set (w := 1 + inject_Z (Z.of_nat (length steps)) * (dt / T)) in *.
  assert (Hw0 : 0 <= w).
  { unfold w. assert (0 <= inject_Z (Z.of_nat (length steps))) by (rewrite <- (Zle_Qle 0); lia).
    assert (0 <= inject_Z (Z.of_nat (length steps)) * (dt / T)) by (apply Qmult_le_0_compat; lra). lra. }
  assert (Ea : qabs (z - zb0) == q * qabs (zb - zb0)).
  { unfold qabs. destruct (Qle_bool_spec 0 (z - zb0)) as [C1|C1], (Qle_bool_spec 0 (zb - zb0)) as [C2|C2].
    - exact E.
    - assert (0 <= q * - (zb - zb0)) by (apply Qmult_le_0_compat; lra). lra.
    - assert (0 <= q * (zb - zb0)) by (apply Qmult_le_0_compat; lra). lra.
    - lra. }
  rewrite Ea. assert (Hq : q * w * qabs (zb - zb0) <= 1 * qabs (zb - zb0)) by (apply Qmult_le_compat_r; [exact B2|apply qabs_nonneg]). lra.
Qed.
Lemma c27_converges_case : resets 10 2 [(5, 9); (5, 9)] 0 = Ok (0 + (2 - 0) * (5 / 10) + (2 - (0 + (2 - 0) * (5 / 10))) * (5 / 10)) /\
  (forall n zb', resets 10 2 (firstn n [(5, 9); (5, 9)]) 0 = Ok zb' -> forall s, nth_error [(5, 9); (5, 9)] n = Some s -> zb' + (1 # 100) < snd s).
Proof.
  split; [vm_compute; reflexivity|]. intros [|[|n]] zb' H s Hs; cbn in Hs; try discriminate.
  - injection Hs as <-. vm_compute in H. injection H as <-. reflexivity.
  - injection Hs as <-. vm_compute in H. injection H as <-. reflexivity.
  - destruct n; discriminate.
Qed.

(** *** C56 *)
Lemma c56_refuted : exists zb' zb dt accfac T avg0, 0 < T /\ 0 < dt /\ 0 < accfac /\ ~ towards avg0 (dzbyear zb' zb dt accfac) (dzbavg zb' zb dt accfac T avg0).
Proof.
  exists 2, 1, (31557600 * 2), 1, 31557600, 0. split; [lra|]. split; [lra|]. split; [lra|]. intros [H|H]; vm_compute in H; destruct H as [H1 H2]; try (now apply H1); now apply H2.
Qed.
Lemma c24_file_case : is_int (Dist1 false [1 # 4; 3 # 4]) = false /\ initialize 2650 (2 # 5) 2 9 0 [1 # 100] (Dist1 false [1 # 4; 3 # 4]) (Some [[3; 5]]) = Ok [[3; 5]].
Proof. split; reflexivity. Qed.
Lemma c56_year_case : 8766 * (1200 * 3) == 31557600 /\ Qred (dzbyear (10001 # 10000) 1 1200 3) = (4383 # 5000).
Proof. split; vm_compute; reflexivity. Qed.
Lemma c56_case : 0 <= 3600 * 1 /\ 3600 * 1 <= 86400 /\ Qred (dzbavg (11 # 10) 1 3600 1 86400 0) = (1461 # 40).
Proof. split; [lra|]. split; [lra|]. vm_compute. reflexivity. Qed.
