(** Examples of whole runs with waves and feedback. *)
From Coq Require Import QArith Lia Lqa List Bool Arith.
From Verif Require Import Base Num Utils_Model Utils_Spec Bed_Model Bed_Spec Bed_Proofs Bed_Cases Solver_Model Solver_Spec Linear Solver_Cases Run_Model Run_Spec Run_Proofs Run_Whole Run_Cases Day_Model Day_Spec Day_Proofs.
Import ListNotations.
Open Scope Q_scope.

(** Waves mix the upper part of the bed, more of it nearer to the sea. *)
Definition m163 : mixing := {| mixes := true; depth := 1 # 10; thick := fun _ => [1 # 20; 1 # 20] |}.
(** A different grain composition of the two layers, so that there is something to mix. *)
Definition cell163 : bedcell := {| Bed_Model.mass := [[10; 20]; [25; 5]]; Bed_Model.pickup := [0; 0]; zb := 1; zs := 0 |}.
Definition s163 : state := {| air := [zeros; zeros]; sand := [cell163; cell163; cell163; cell163]; oldCu := [zeros; zeros]; oldCuf := [zeros; zeros]; oldw := fun _ => [0; 0] |}.
(** It blows until the second cell has been eroded by 3 mm; half of the difference in level slides to there from the third cell, which is raised by 2 mm in every step. *)
Definition climate163 (past : list state) : day :=
  {| heights := fun j => match j with O => 2 | 1%nat => 1 | 2%nat => 1 # 4 | _ => 0 end;
     blow := match past with s :: _ => if Qltb (997 # 1000) (level s 1) then Some [breeze 8; breeze 4] else None | [] => None end;
     reshape := fun z j => match j with 1%nat => z 1%nat + (z 2%nat - z 1%nat) / 2 | 2%nat => z 2%nat - (z 2%nat - z 1%nat) / 2 + (1 # 500) | _ => z j end |}.
(** Levels, top layer of the second cell, which steps had wind, and the two sides of the balance. *)
Definition shown_days (r : result (option (state * list diary))) : option (list Q * list Q * list bool * Q * Q * Q) :=
  match r with
  | Ok (Some (s, t)) => Some (map (fun c => Qred (zb c)) (sand s), match nth_error (sand s) 1 with Some c => map Qred (hd [] (Bed_Model.mass c)) | None => [] end,
      map (fun d => match results d with [] => false | _ => true end) t,
      Qred (content k123 e123 one_area s - content k123 e123 one_area s163), Qred (sand_blown k123 t), Qred (sand_lifted k123 e123 one_area t))
  | _ => None
  end.
Lemma state163 : sound_state 2 k123 s163.
Proof.
  split; [reflexivity|]. split; [intros a Ha i _; cbn in Ha; members; vm_compute; discriminate|]. split; [reflexivity|].
  assert (P : sound_layers 2 (Bed_Model.mass cell163)).
  { split; [discriminate|]. split; [intros l Hl; cbn in Hl; members; reflexivity|]. split; [|intros l Hl; cbn in Hl; members; reflexivity]. intros l Hl x Hx; cbn in Hl; members; cbn in Hx; members; vm_compute; discriminate. }
  intros c Hc. cbn [sand s163 In] in Hc. members; exact P.
Qed.
Lemma equal163 : equal_layers 30 s163.
Proof. intros c Hc l Hl. cbn [sand s163 In] in Hc. members; cbn in Hl; members; reflexivity. Qed.
Lemma air163 : limited_air k123 10 s163.
Proof. intros a Ha i _. cbn in Ha. members; vm_compute; discriminate. Qed.
Lemma fits163 : fits m163 s163.
Proof. intros j c Hc. apply nth_error_In in Hc. cbn [sand s163 In] in Hc. members; (split; [reflexivity|]); intros x Hx; cbn in Hx; members; discriminate. Qed.
Lemma fair163 : fair_climate (gauss 4) 2 k123 one_area climate163.
Proof.
  intros past ws E. cbn [blow climate163] in E. destruct past as [|s p]; [discriminate|]. destruct (Qltb _ _); [|discriminate]. injection E as <-.
  split; [reflexivity|]. intros w Hw; cbn [In] in Hw; destruct Hw as [<- | [<- | []]]; apply breeze_fair; lra.
Qed.
Lemma limited163 : limited_climate k123 10 climate163.
Proof.
  intros past ws E. cbn [blow climate163] in E. destruct past as [|s p]; [discriminate|]. destruct (Qltb _ _); [|discriminate]. injection E as <-.
  intros w Hw; cbn [In] in Hw; destruct Hw as [<- | [<- | []]]; apply breeze_limited; lra.
Qed.
Definition run163 : result (option (state * list diary)) := days (gauss 4) k123 e123 m163 climate163 2 true [] s163.
Definition gentleb (k : cfg) (L : Q) (d : diary) : bool :=
  match results d with [] => true | _ => forallb converged (results d) && forallb (fun j => Qle_bool (qabs (net_deposit (picked (results d) j))) L && Qltb (net_deposit (picked (results d) j)) L) (seq 0 (number_of_cells k)) end.
Lemma gentleb_ok k L d : gentleb k L d = true -> gentle k L d.
Proof.
  unfold gentleb, gentle. destruct (results d) as [|o os] eqn:E. intros _. left. reflexivity. rewrite <- E. intros H. right. apply andb_prop in H. destruct H as (H1 & H2). rewrite forallb_forall in H1, H2. split. exact H1.
  intros j Hj. specialize (H2 j ltac:(apply in_seq; lia)). apply andb_prop in H2. destruct H2 as (A & B). apply Qle_bool_iff in A. split. exact A. destruct (Qltb_spec (net_deposit (picked (results d) j)) L); [assumption | discriminate].
Qed.
Lemma shown163 : shown_days run163 = Some ([497 # 500; 374 # 375; 1499 # 1500; 497 # 500], [50 # 3; 40 # 3], [true; false], 4 # 3, -8 # 3, 4).
Proof. vm_compute. reflexivity. Qed.
Lemma c163_whole : sound_setup 2 k123 e123 /\ prescribed_ends k123 /\ inject_Z (Z.of_nat 2) * (10 * dt k123 / T k123) < 30 /\ fair_climate (gauss 4) 2 k123 one_area climate163 /\ limited_climate k123 10 climate163 /\
  sound_state 2 k123 s163 /\ equal_layers 30 s163 /\ limited_air k123 10 s163 /\ fits m163 s163 /\
  shown_days run163 = Some ([497 # 500; 374 # 375; 1499 # 1500; 497 # 500], [50 # 3; 40 # 3], [true; false], 4 # 3, -8 # 3, 4).
Proof.
  split; [apply setup123|]. split; [apply ends123|]. split; [reflexivity|]. split; [apply fair163|]. split; [apply limited163|]. split; [apply state163|]. split; [apply equal163|]. split; [apply air163|]. split; [apply fits163|]. exact shown163.
Qed.
Lemma c163_balance : sound_setup 2 k123 e123 /\ fair_climate (gauss 4) 2 k123 one_area climate163 /\ sound_state 2 k123 s163 /\ equal_layers 30 s163 /\ fits m163 s163 /\
  (exists s' t, run163 = Ok (Some (s', t)) /\ forall y, In y t -> gentle k123 30 y) /\
  shown_days run163 = Some ([497 # 500; 374 # 375; 1499 # 1500; 497 # 500], [50 # 3; 40 # 3], [true; false], 4 # 3, -8 # 3, 4).
Proof.
  split; [apply setup123|]. split; [apply fair163|]. split; [apply state163|]. split; [apply equal163|]. split; [apply fits163|]. split; [|exact shown163].
  assert (H : match run163 with Ok (Some (_, t)) => forallb (gentleb k123 30) t | _ => false end = true) by (vm_compute; reflexivity).
  destruct run163 as [[[s' t]|]|]; try discriminate. exists s', t. split. reflexivity. intros y Hy. rewrite forallb_forall in H. apply gentleb_ok, H, Hy.
Qed.
(** A day with waves only, over a bed that nothing reshapes. *)
Definition day164 : day := {| heights := fun j => match j with O => 2 | 1%nat => 1 | 2%nat => 1 # 4 | _ => 0 end; blow := None; reshape := fun z j => z j |}.
(** All layers of all cells after such a day. *)
Definition shown_bed (r : result (option (state * diary))) : option (list (list (list Q))) :=
  match r with Ok (Some (s, _)) => Some (map (fun c => map (map Qred) (Bed_Model.mass c)) (sand s)) | _ => None end.
Lemma c164_waves : length (grains e123) = 2%nat /\ sound_state 2 k123 s163 /\ equal_layers 30 s163 /\ fits m163 s163 /\ blow day164 = None /\ (forall z j, reshape day164 z j = z j) /\
  shown_bed (whole_step (gauss 4) k123 e123 m163 true s163 day164) = Some [[[55 # 4; 65 # 4]; [85 # 4; 35 # 4]]; [[35 # 2; 25 # 2]; [35 # 2; 25 # 2]]; [[10; 20]; [25; 5]]; [[10; 20]; [25; 5]]].
Proof. split; [reflexivity|]. split; [apply state163|]. split; [apply equal163|]. split; [apply fits163|]. split; [reflexivity|]. split; [reflexivity|]. vm_compute. reflexivity. Qed.

(** Waves of height [h] over two layers of 5 cm. *)
Definition waves165 (h : Q) : mixcell := {| thlyr := [1 # 20; 1 # 20]; mixmass := [[10; 20]; [25; 5]]; hsmix := h |}.
Lemma mixable165 h : mixable 2 (waves165 h).
Proof. split; [reflexivity|]. split; [now apply shaped_check|]. split; [now apply nonneg_check|]. intros x Hx; cbn in Hx; members; vm_compute; discriminate. Qed.
Lemma higher_waves : exists nf fac c c' m m' i a b, mixable nf c /\ mixable nf c' /\ thlyr c' = thlyr c /\ mixmass c' = mixmass c /\ 0 < fac * hsmix c < fac * hsmix c' /\
  bottom a (thlyr c) <= fac * hsmix c /\ bottom b (thlyr c) <= fac * hsmix c /\ mixtoplayer true nf fac [c] = [m] /\ mixtoplayer true nf fac [c'] = [m'] /\ contrast m i a b == 0 /\ contrast m' i a b < 0.
Proof.
  exists 2%nat, (1 # 10), (waves165 1), (waves165 2). eexists. eexists. exists 0%nat, 0%nat, 1%nat. split; [apply mixable165|]. split; [apply mixable165|]. split; [reflexivity|]. split; [reflexivity|]. split; [split; reflexivity|].
  split; [vm_compute; discriminate|]. split; [vm_compute; discriminate|]. split; [reflexivity|]. split; [reflexivity|]. split; [vm_compute; reflexivity | vm_compute; reflexivity].
Qed.
Lemma c165_case : nth_error [waves165 0; waves165 2] 1 = Some (waves165 2) /\ mixable 2 (waves165 2) /\ 0 < (1 # 10) * hsmix (waves165 2) /\ bottom 0 (thlyr (waves165 2)) <= (1 # 10) * hsmix (waves165 2) /\ bottom 1 (thlyr (waves165 2)) <= (1 # 10) * hsmix (waves165 2) /\
  map (map (map Qred)) (mixtoplayer true 2 (1 # 10) [waves165 0; waves165 2]) = [[[10; 20]; [25; 5]]; [[55 # 4; 65 # 4]; [85 # 4; 35 # 4]]].
Proof. split; [reflexivity|]. split; [apply mixable165|]. split; [reflexivity|]. split; [vm_compute; discriminate|]. split; [vm_compute; discriminate|]. vm_compute. reflexivity. Qed.
(** A thin layer on a thick one, with the mass of their thickness. *)
Definition layers166 : mixcell := {| thlyr := [1 # 100; 3 # 100]; mixmass := [[5; 5]; [15; 15]]; hsmix := 1 |}.
Lemma mixable166 : mixable 2 layers166.
Proof. split; [reflexivity|]. split; [now apply shaped_check|]. split; [now apply nonneg_check|]. intros x Hx; cbn in Hx; members; vm_compute; discriminate. Qed.
Lemma layers_even : exists nf fac c m d, mixable nf c /\ 0 < d /\ (forall a, (a < length (thlyr c))%nat -> qsum (nth a (mixmass c) []) == d * nth a (thlyr c) 0) /\ mixtoplayer true nf fac [c] = [m] /\
  (exists a b, (a < length (thlyr c))%nat /\ (b < length (thlyr c))%nat /\ d * nth a (thlyr c) 0 < qsum (nth a m []) /\ qsum (nth b m []) < d * nth b (thlyr c) 0).
Proof.
  exists 2%nat, (1 # 25), layers166. eexists. exists 1000. split; [apply mixable166|]. split; [reflexivity|]. split. intros [|[|a]] Ha; [reflexivity | reflexivity | cbn in Ha; lia]. split; [reflexivity|].
  exists 0%nat, 1%nat. split; [cbn; lia|]. split; [cbn; lia|]. split; vm_compute; reflexivity.
Qed.
Lemma c166_case : nth_error [layers166] 0 = Some layers166 /\ mixable 2 layers166 /\ 0 < (1 # 20) * hsmix layers166 /\ bottom 0 (thlyr layers166) <= (1 # 20) * hsmix layers166 /\ bottom 1 (thlyr layers166) <= (1 # 20) * hsmix layers166 /\
  map (map (map Qred)) (mixtoplayer true 2 (1 # 20) [layers166]) = [[[9; 9]; [11; 11]]].
Proof. split; [reflexivity|]. split; [apply mixable166|]. split; [reflexivity|]. split; [vm_compute; discriminate|]. split; [vm_compute; discriminate|]. vm_compute. reflexivity. Qed.
