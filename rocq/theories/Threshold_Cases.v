(** Assembled statements about thresholds and transport capacity, and concrete cases. *)
From Coq Require Import Reals Lra Lia Psatz String.
From Verif Require Import Base Ext Threshold_Model Threshold_Spec Threshold_Proofs.
Open Scope R_scope.

(** The defaults of constants.py with given grains and options. *)
Definition pdef (gs gd : list R) (w : R) (mm : option R) (file size mo sa sh nel : bool) (me : string) : params :=
  {| Aa := 85 / 1000; rhog := 2650; rhoa := 1225 / 1000; rhow := 1025; grav := 981 / 100; porosity := 4 / 10; w15 := w; resw_moist := 1 / 100;
     eps := 1 / 1000; csalt := 35 / 1000; beta := 130; sigma := 42 / 10; grain_size := gs; grain_dist := gd; m := mm; method_moist := false;
     process_threshold := true; threshold_file := file; th_grainsize := size; th_moisture := mo; th_drylayer := false; th_humidity := false;
     th_salt := sa; th_sheltering := sh; th_nelayer := nel; process_tide := true; method_moist_threshold := me |}.
Definition qdef : tparams := {| Cb := 15 / 10; Ck := 278 / 100; Cl := 67 / 10; Cdk := 5; trhoa := 1225 / 1000; tg := 981 / 100; accfac := 1; process_transport := true |}.
Lemma qdef_good : good_t qdef.
Proof. repeat split; cbn; lra. Qed.
Definition sand := pdef [225 / 1000000] [1] (2 / 100) None false true.
(** Fine sand with a little gravel. *)
Definition mix (w : R) (mo : bool) := pdef [2 / 10000; 4 / 1000] [999 / 1000; 1 / 1000] w None false true mo false false false.
Lemma pdef_physical gs gd w mm b1 b2 b3 b4 b5 b6 me : 0 < w -> Forall (fun d => 0 < d) gs -> 0 < wsum gs gd -> physical (pdef gs gd w mm b1 b2 b3 b4 b5 b6 me).
Proof. intros H1 H2 H3. repeat split; cbn; try lra; assumption. Qed.
Lemma mix_physical w mo me : 0 < w -> physical (mix w mo me).
Proof. intros H. apply pdef_physical; [exact H|repeat constructor; lra|cbn; lra]. Qed.
Lemma sand_physical b1 b2 b3 b4 me : physical (sand b1 b2 b3 b4 me).
Proof. apply pdef_physical; [lra|repeat constructor; lra|cbn; lra]. Qed.

(** ** C28 *)
Definition C28_stmt := forall q tr rows g c c', good_t q -> 0 < accfac q -> process_transport q = true -> good_g g -> equilibrium q tr rows g c = Ok c' ->
  exists x, Cu c' = Fin x /\ 0 <= x /\ (tr <> Dk -> ele (Fin (gustar g)) (guth g) -> x = 0) /\
    (tr = Dk -> ele (Fin (gustar g)) (emul (Fin (8 / 10)) (guth g)) -> x = 0) /\
    (tr <> Dk -> 0 < gu g -> ~ ele (Fin (gustar g)) (guth g) -> 0 < x).
Lemma C28_all : C28_stmt.
Proof. exact equilibrium_cu. Qed.
Definition gcell (us th thf : R) : grain := {| gu := 1; gustar := us; gustar0 := us; guth := Fin th; guthf := Fin thf; guth0 := Fin th; gd := 225 / 1000000 |}.
Definition calm : conc := {| Cu := Fin 0; Cuf := Fin 0; Cu0 := Fin 0 |}.
Lemma eq_fin q tr us th thf c : tr = Bagnold \/ tr = Dk -> us <> 0 -> process_transport q = true -> equilibrium q tr 1 (gcell us th thf) c =
  Ok {| Cu := Fin (Rmax 0 (kval q tr (225 / 1000000) * shape tr us th / 1) * accfac q); Cuf := Fin (Rmax 0 (kval q tr (225 / 1000000) * shape tr us thf / 1) * accfac q);
        Cu0 := Fin (Rmax 0 (kval q tr (225 / 1000000) * shape tr us th / 1) * accfac q) |}.
Proof.
  intros Ht Hus Hp. unfold equilibrium. rewrite Hp. replace (match tr with BagnoldGs => negb (Nat.eqb 1 1) | _ => false end) with false by (now destruct tr).
  cbn [bind gustar gustar0 gu guth guthf guth0 gd gcell]. destruct (neqb_spec us 0) as [_|]; [|contradiction]. destruct (neqb_spec 1 0) as [_|X]; [|exfalso; apply X; lra].
  destruct Ht as [-> | ->]; cbn [andb]; rewrite !capacity_fin; reflexivity.
Qed.
Lemma C28_ex : good_g (gcell (3 / 10) (2 / 10) (2 / 10)) /\ exists c', equilibrium qdef Bagnold 1 (gcell (3 / 10) (2 / 10) (2 / 10)) calm = Ok c'.
Proof.
  split; [repeat split; cbn; try lra; right; exists (2 / 10); split; [reflexivity|lra]|]. eexists. apply eq_fin; [now left|lra|reflexivity].
Qed.
Lemma rmax_pos x : 0 < x -> 0 < Rmax 0 x.
Proof. intros H. apply Rlt_le_trans with x; [exact H|apply Rmax_r]. Qed.
Lemma dk_refuted : exists q g c c' x, good_t q /\ accfac q = 1 /\ process_transport q = true /\ good_g g /\ equilibrium q Dk 1 g c = Ok c' /\
  ele (Fin (gustar g)) (guth g) /\ Cu c' = Fin x /\ 0 < x.
Proof.
  exists qdef, (gcell (9 / 10) 1 1), calm. eexists. eexists. split; [exact qdef_good|]. split; [reflexivity|]. split; [reflexivity|].
  split; [repeat split; cbn; try lra; right; exists 1; split; [reflexivity|lra]|]. split; [apply eq_fin; [now right|lra|reflexivity]|].
  split; [cbn; lra|]. split; [reflexivity|]. cbn. rewrite Rmult_1_r. apply rmax_pos. lra.
Qed.
(** A threshold file: uthf is never computed. *)
Lemma file_refuted : exists p cl t t' q g c c' x, compute p cl t = Ok t' /\ threshold_file p = true /\ uthf t = [Fin 0] /\ uth t' = [guth g] /\ uthf t' = [guthf g] /\
  good_t q /\ process_transport q = true /\ good_g g /\ equilibrium q Bagnold 1 g c = Ok c' /\ ele (Fin (gustar g)) (guth g) /\ Cu c' = Fin 0 /\ Cuf c' = Fin x /\ 0 < x.
Proof.
  exists (pdef [225 / 1000000] [1] (2 / 100) None true true false false false false ""),
    {| moist := 0; zb := 1; zs := 0; salt := 0; ustar := 3 / 10; mass := [1]; mask := (1, 0); ne := 0 |},
    {| uth := [Fin (4 / 10)]; uth0 := [Fin 0]; uthf := [Fin 0] |}. eexists. exists qdef, (gcell (3 / 10) (4 / 10) 0), calm. eexists. eexists.
  split; [reflexivity|]. split; [reflexivity|]. split; [reflexivity|]. split; [reflexivity|]. split; [reflexivity|]. split; [exact qdef_good|]. split; [reflexivity|].
  split; [repeat split; cbn; try lra; right; exists (4 / 10); split; [reflexivity|lra]|]. split; [apply eq_fin; [now left|lra|reflexivity]|].
  split; [cbn; lra|]. split.
  - cbn. f_equal. rewrite Rmax_left by lra. lra.
  - split; [reflexivity|]. cbn. rewrite Rmult_1_r. apply rmax_pos. lra.
Qed.
(** The concentration of the flat bed is not reset when the wind drops; with an acceleration factor it grows instead. *)
Lemma calm_stmt q tr rows g c c' x : equilibrium q tr rows g c = Ok c' -> process_transport q = true -> gustar g = 0 -> Cu0 c = Fin x ->
  Cu c' = Fin 0 /\ Cuf c' = Fin 0 /\ Cu0 c' = Fin (x * accfac q).
Proof.
  intros E Hp Hg Hc. unfold equilibrium in E. rewrite Hp in E. destruct (match tr with BagnoldGs => negb (Nat.eqb rows 1) | _ => false end); [discriminate|].
  cbn [bind] in E. apply Ok_inj in E. subst c'. cbn. rewrite Hg. destruct (neqb_spec 0 0) as [X|_]; [congruence|]. cbn. rewrite Hc. cbn.
  repeat split; f_equal; ring.
Qed.
Lemma calm_refuted : exists q g0 g1 c0 c1 c2 x y, good_t q /\ process_transport q = true /\ good_g g0 /\ good_g g1 /\
  equilibrium q Bagnold 1 g0 c0 = Ok c1 /\ gustar g1 = 0 /\ gustar0 g1 = 0 /\ equilibrium q Bagnold 1 g1 c1 = Ok c2 /\ Cu0 c1 = Fin x /\ Cu0 c2 = Fin y /\ 0 < x /\ x < y.
Proof.
  set (q := {| Cb := 15 / 10; Ck := 278 / 100; Cl := 67 / 10; Cdk := 5; trhoa := 1225 / 1000; tg := 981 / 100; accfac := 2; process_transport := true |}).
  exists q, (gcell (3 / 10) (2 / 10) (2 / 10)), (gcell 0 (2 / 10) (2 / 10)), calm.
  set (x := Rmax 0 (kval q Bagnold (225 / 1000000) * shape Bagnold (3 / 10) (2 / 10) / 1) * 2).
  exists {| Cu := Fin x; Cuf := Fin x; Cu0 := Fin x |}. eexists. exists x, (x * 2).
  assert (Px : 0 < x) by (unfold x; cbn; apply Rmult_lt_0_compat; [apply rmax_pos|]; lra).
  split; [repeat split; cbn; lra|]. split; [reflexivity|].
  split; [repeat split; cbn; try lra; right; exists (2 / 10); split; [reflexivity|lra]|].
  split; [repeat split; cbn; try lra; right; exists (2 / 10); split; [reflexivity|lra]|].
  split; [unfold x; exact (eq_fin q Bagnold (3 / 10) (2 / 10) (2 / 10) calm (or_introl eq_refl) ltac:(lra) eq_refl)|].
  split; [reflexivity|]. split; [reflexivity|]. split; [unfold equilibrium; cbn [process_transport q bind]; reflexivity|]. split; [reflexivity|].
  split; [|lra]. cbn. destruct (neqb_spec 0 0) as [X|_]; [exfalso; apply X; reflexivity|]. reflexivity.
Qed.
(** The cell as it would be on a flat bed: shear velocity and threshold of the flat bed. *)
Definition on_flat (g : grain) : grain :=
  {| gu := gu g; gustar := gustar0 g; gustar0 := gustar0 g; guth := guth0 g; guthf := guthf g; guth0 := guth0 g; gd := gd g |}.
Lemma flat_conc q tr rows g c c1 c2 : process_transport q = true -> tr <> Kawamura -> tr <> Lettau -> tr <> BagnoldGs -> gustar g <> 0 -> gu g <> 0 -> gustar0 g <> 0 ->
  equilibrium q tr rows g c = Ok c1 -> equilibrium q tr rows (on_flat g) c = Ok c2 -> Cu0 c1 = Cu c2.
Proof.
  intros Hp H1 H2 H3 Hs Hu H0 E1 E2. unfold equilibrium in E1, E2. rewrite Hp in E1, E2. cbn [on_flat gustar gu gustar0 guth guth0 guthf gd] in E2.
  destruct (neqb_spec (gustar g) 0) as [_|]; [|contradiction]. destruct (neqb_spec (gu g) 0) as [_|]; [|contradiction]. destruct (neqb_spec (gustar0 g) 0) as [_|]; [|contradiction].
  destruct tr; try congruence; cbn [andb bind] in E1, E2; apply Ok_inj in E1; apply Ok_inj in E2; subst c1 c2; reflexivity.
Qed.
Lemma flat_ex : gustar (gcell (3 / 10) (2 / 10) (2 / 10)) <> 0 /\ gustar0 (gcell (3 / 10) (2 / 10) (2 / 10)) <> 0 /\
  exists c', equilibrium qdef Bagnold 1 (on_flat (gcell (3 / 10) (2 / 10) (2 / 10))) calm = Ok c'.
Proof. split; [cbn; lra|]. split; [cbn; lra|]. eexists. apply (eq_fin qdef Bagnold (3 / 10) (2 / 10) (2 / 10) calm); [now left|lra|reflexivity]. Qed.
(** Kawamura and Lettau never compute it: it stays zero, also where the bed is flat and the sand moves. *)
Lemma flat_refuted : forall tr, tr = Kawamura \/ tr = Lettau -> exists q g c c' x, good_t q /\ process_transport q = true /\ good_g g /\ gustar0 g = gustar g /\ guth0 g = guth g /\
  equilibrium q tr 1 g c = Ok c' /\ Cu c' = Fin x /\ 0 < x /\ Cu0 c' = Fin 0.
Proof.
  intros tr Ht. set (g := gcell (3 / 10) (2 / 10) (2 / 10)).
  assert (Gg : good_g g) by (repeat split; cbn; try lra; right; exists (2 / 10); split; [reflexivity|lra]).
  assert (E : exists c', equilibrium qdef tr 1 g calm = Ok c' /\ Cu0 c' = Fin 0).
  { unfold equilibrium. change (process_transport qdef) with true. destruct (neqb (gustar g) 0 && neqb (gu g) 0)%bool;
    destruct Ht as [-> | ->]; cbn; eexists; (split; [reflexivity|]); cbn; f_equal; ring. }
  destruct E as (c' & E & E0). destruct (C28_all qdef tr 1%nat g calm c' qdef_good ltac:(cbn; lra) eq_refl Gg E) as (x & Ex & _ & _ & _ & Hx).
  exists qdef, g, calm, c', x. split; [exact qdef_good|]. split; [reflexivity|]. split; [exact Gg|]. split; [reflexivity|]. split; [reflexivity|]. split; [exact E|].
  split; [exact Ex|]. split; [|exact E0]. apply Hx; [destruct Ht as [-> | ->]; discriminate|cbn; lra|intro X; cbn in X; lra].
Qed.
(** bagnold_gs on a grid of more than one row. *)
Lemma gs_raises q rows g c : process_transport q = true -> (rows <> 1)%nat -> equilibrium q BagnoldGs rows g c = Raise IndexError.
Proof. intros Hp Hr. unfold equilibrium. rewrite Hp. destruct (Nat.eqb_spec rows 1); [contradiction|reflexivity]. Qed.

(** ** C58 *)
Lemma C58_ex : good_th (Fin (2 / 10)) /\ good_th (Fin (25 / 100)) /\ ele (Fin (2 / 10)) (Fin (25 / 100)) /\ exists a b,
  capacity qdef Bagnold (225 / 1000000) (3 / 10) 1 (Fin (2 / 10)) = Fin a /\ capacity qdef Bagnold (225 / 1000000) (3 / 10) 1 (Fin (25 / 100)) = Fin b /\ b < a.
Proof.
  split; [right; exists (2 / 10); split; [reflexivity|lra]|]. split; [right; exists (25 / 100); split; [reflexivity|lra]|]. split; [cbn; lra|].
  rewrite !capacity_fin. eexists. eexists. split; [reflexivity|]. split; [reflexivity|]. cbn. rewrite !Rmax_right by lra. lra.
Qed.
Lemma kawamura_refuted : exists q d us u t t' a b, good_t q /\ 0 < d /\ 0 < u /\ 0 < t < t' /\ t' < us /\
  capacity q Kawamura d us u (Fin t) = Fin a /\ capacity q Kawamura d us u (Fin t') = Fin b /\ 0 < a < b.
Proof.
  exists qdef, (225 / 1000000), (9 / 10), 1, (1 / 10), (2 / 10). eexists. eexists. split; [exact qdef_good|]. repeat (split; [lra|]).
  rewrite !capacity_fin. split; [reflexivity|]. split; [reflexivity|]. cbn. rewrite !Rmax_right by lra. lra.
Qed.
Lemma dk_mono_refuted : exists q d us u t t' a b, good_t q /\ 0 < d /\ 0 < u /\ 0 < t < t' /\ t' < us /\
  capacity q Dk d us u (Fin t) = Fin a /\ capacity q Dk d us u (Fin t') = Fin b /\ 0 < a < b.
Proof.
  exists qdef, (225 / 1000000), (9 / 10), 1, (1 / 10), (2 / 10). eexists. eexists. split; [exact qdef_good|]. repeat (split; [lra|]).
  rewrite !capacity_fin. split; [reflexivity|]. split; [reflexivity|]. cbn. rewrite !Rmax_right by lra. lra.
Qed.

(** ** C29 *)
Lemma C29_ex : physical (mix (2 / 100) true "hotta") /\ raises Hotta /\ good_th (Fin (2 / 10)) /\
  moisture1 (mix (2 / 100) true "hotta") Hotta (121 / 10000 * 1590 / 1025) (Fin (2 / 10)) = Fin (2 / 10 + 75 / 10 * (121 / 10000)).
Proof.
  split; [apply mix_physical; lra|]. split; [exact I|]. split; [right; exists (2 / 10); split; [reflexivity|lra]|].
  assert (E : mass_content (mix (2 / 100) true "hotta") (121 / 10000 * 1590 / 1025) = 121 / 10000) by (unfold mass_content; cbn; lra).
  unfold moisture1. rewrite E. unfold is_moist. cbn [resw_moist rhow rhog porosity mix pdef].
  destruct (gtb_spec (121 / 10000) (1 / 100 * 1025 / (2650 * (1 - 4 / 10)) + 5 / 1000)) as [_|X]; [|exfalso; apply X; lra].
  destruct (gtb_spec (121 / 10000) (64 / 1000)); [lra|]. reflexivity.
Qed.
(** A moist cell with mass content 0.0121. *)
Lemma moist_mix w mo ms me u : moisture1 (mix w mo ms) me (121 / 10000 * 1590 / 1025) u = moist_threshold (mix w mo ms) me (121 / 10000) u.
Proof.
  assert (E : mass_content (mix w mo ms) (121 / 10000 * 1590 / 1025) = 121 / 10000) by (unfold mass_content; cbn; lra).
  unfold moisture1. rewrite E. unfold is_moist. cbn [resw_moist rhow rhog porosity mix pdef].
  destruct (gtb_spec (121 / 10000) (1 / 100 * 1025 / (2650 * (1 - 4 / 10)) + 5 / 1000)) as [_|X]; [|exfalso; apply X; lra].
  destruct (gtb_spec (121 / 10000) (64 / 1000)); [lra|]. reflexivity.
Qed.
(** The dry threshold of the gravel exceeds 0.75 m/s. *)
Definition gravel : R := 85 / 1000 * sqrt ((2650 - 1225 / 1000) / (1225 / 1000) * (981 / 100) * (4 / 1000)).
Lemma gravel_gt : 75 / 100 < gravel.
Proof.
  unfold gravel. assert (89 / 10 < sqrt ((2650 - 1225 / 1000) / (1225 / 1000) * (981 / 100) * (4 / 1000))); [|lra].
  rewrite <- (sqrt_square (89 / 10)) by lra. apply sqrt_lt_1; lra.
Qed.
Lemma gravel_in mo ms : In (Fin gravel) (grainsize (mix (2 / 100) mo ms)).
Proof. rewrite grainsize_eq by (apply mix_physical; lra). right. left. reflexivity. Qed.
Lemma saleh_refuted : exists p x u, physical p /\ 0 < x /\ In u (grainsize p) /\ ~ ele u (moisture1 p SalehFryear x u).
Proof.
  exists (mix (2 / 100) true "saleh_fryear"), (121 / 10000 * 1590 / 1025), (Fin gravel). split; [apply mix_physical; lra|]. split; [lra|]. split; [apply gravel_in|].
  rewrite moist_mix. cbn. pose proof gravel_gt. lra.
Qed.
Lemma exp4 : exp (394 / 100) <= 81.
Proof.
  assert (E : exp 4 <= 81).
  { replace 4 with (1 + 1 + (1 + 1)) by ring. rewrite !exp_plus. pose proof exp_le_3 as H. pose proof (exp_pos 1) as H0.
    assert (H1 : exp 1 * exp 1 <= 3 * 3) by (apply Rmult_le_compat; lra). replace 81 with (3 * 3 * (3 * 3)) by ring.
    apply Rmult_le_compat; try assumption; apply Rmult_le_pos; lra. }
  apply Rle_trans with (exp 4); [apply exp_mono; lra|exact E].
Qed.
Lemma cornelis_refuted : exists p x u, physical p /\ 0 < x /\ In u (grainsize p) /\ ~ ele u (moisture1 p Cornelis x u).
Proof.
  exists (mix (2 / 100) true "cornelis"), (121 / 10000 * 1590 / 1025), (Fin gravel). split; [apply mix_physical; lra|]. split; [lra|]. split; [apply gravel_in|].
  rewrite moist_mix. cbn [moist_threshold mix pdef rhog rhoa grav w15 mean_size grain_size grain_dist wsum]. pose proof gravel_gt as G. intros L. cbn [ele] in L.
  assert (E : / exp (- (65 / 10) * (121 / 10000) / (2 / 100)) <= 81).
  { rewrite <- exp_Ropp. apply Rle_trans with (exp (394 / 100)); [apply exp_mono; lra|exact exp4]. }
  match type of L with _ <= sqrt ?x => assert (Hx : x <= 75 / 100 * (75 / 100)) end.
  { unfold mean_size. cbn [mix pdef grain_size grain_dist wsum]. 
    match goal with |- context [?a / (1000000000 * exp ?y)] => replace (a / (1000000000 * exp y)) with (a / 1000000000 * / exp y) by (field; apply Rgt_not_eq, exp_pos) end.
    set (e := / exp (- (65 / 10) * (121 / 10000) / (2 / 100))) in *. clearbody e. lra. }
  apply sqrt_le_1_alt in Hx. rewrite sqrt_square in Hx by lra. lra.
Qed.
Lemma rp_le x y z : 0 < x -> x <= 1 -> y <= z -> Rpower x z <= Rpower x y.
Proof.
  intros H0 H1 H. unfold Rpower. apply exp_mono. assert (ln x <= 0). { rewrite <- ln_1. destruct H1 as [H1 | ->]; [left; now apply ln_increasing|lra]. }
  assert (0 <= (z - y) * - ln x) by (apply Rmult_le_pos; lra). lra.
Qed.
Lemma rp15 : Rpower (121 / 10000) (152 / 100) <= 1331 / 1000000.
Proof.
  apply Rle_trans with (Rpower (121 / 10000) (1 + / 2)); [apply rp_le; lra|]. rewrite Rpower_plus, Rpower_1 by lra. rewrite Rpower_sqrt by lra.
  replace (121 / 10000) with (11 / 100 * (11 / 100)) at 2 by lra. rewrite sqrt_square by lra. lra.
Qed.
Lemma dong_refuted : exists p x u, physical p /\ 0 < x /\ In u (grainsize p) /\ ~ ele u (moisture1 p Dong2007 x u).
Proof.
  exists (mix (2 / 100) true "dong_2007"), (121 / 10000 * 1590 / 1025), (Fin gravel). split; [apply mix_physical; lra|]. split; [lra|]. split; [apply gravel_in|].
  rewrite moist_mix. cbn [moist_threshold]. pose proof gravel_gt as G. intros L. unfold mean_size in L. cbn [ele mix pdef rhog rhoa grav grain_size grain_dist wsum] in L.
  pose proof rp15 as Rp. match type of L with _ <= _ * sqrt ?x * _ => assert (Hx : sqrt x <= 21 / 10) end.
  { rewrite <- (sqrt_square (21 / 10)) by lra. apply sqrt_le_1_alt. lra. }
  set (r := Rpower (121 / 10000) (152 / 100)) in *. assert (0 < r) by apply exp_pos. clearbody r.
  match type of L with _ <= _ * ?s * _ => set (s0 := s) in *; assert (0 <= s0) by apply sqrt_pos; clearbody s0 end.
  assert (16 / 100 * s0 * (1 + 4782 / 10 * r) <= 16 / 100 * (21 / 10) * (1 + 4782 / 10 * (1331 / 1000000))) by (apply Rmult_le_compat; lra). lra.
Qed.
(** Gregory and Darwish with a moisture content of 0.005 at the wilting point: the threshold falls with the moisture. *)
Lemma wet_mix w mo ms me mg u : 121 / 10000 <= mg -> mg <= 64 / 1000 -> moisture1 (mix w mo ms) me (mg * 1590 / 1025) u = moist_threshold (mix w mo ms) me mg u.
Proof.
  intros H0 H1. assert (E : mass_content (mix w mo ms) (mg * 1590 / 1025) = mg) by (unfold mass_content; cbn; lra).
  unfold moisture1. rewrite E. unfold is_moist. cbn [resw_moist rhow rhog porosity mix pdef].
  destruct (gtb_spec mg (1 / 100 * 1025 / (2650 * (1 - 4 / 10)) + 5 / 1000)) as [_|X]; [|exfalso; apply X; lra].
  destruct (gtb_spec mg (64 / 1000)); [lra|]. reflexivity.
Qed.
Lemma gregory_refuted : exists p x y u, physical p /\ 0 < x < y /\ good_th u /\ ~ ele (moisture1 p GregoryDarwish x u) (moisture1 p GregoryDarwish y u).
Proof.
  exists (mix (5 / 1000) true "gregory_darwish"), (55 / 1000 * 1590 / 1025), (64 / 1000 * 1590 / 1025), (Fin 1).
  split; [apply mix_physical; lra|]. split; [lra|]. split; [right; exists 1; split; [reflexivity|lra]|].
  rewrite !wet_mix by lra. cbn [moist_threshold]. unfold mean_size. cbn [mix pdef rhog rhow grav w15 grain_size grain_dist wsum emul ele]. intros L. rewrite !Rmult_1_l in L.
  set (k := 6 / PI * (612 / 10000000) / (2650 * (981 / 100) * ((2 / 10000 * (999 / 1000) + (4 / 1000 * (1 / 1000) + 0)) * (2 / 10000 * (999 / 1000) + (4 / 1000 * (1 / 1000) + 0))))) in *.
  assert (Hk : 0 <= k). { unfold k. pose proof PI_RGT_0. apply div_nn; [|lra]. apply Rmult_le_pos; [apply div_nn; lra|lra]. }
  clearbody k. rewrite !Rmax_left in L by lra.
  set (a := exp (- (1 / 10) * (55 / 1000) / (5 / 1000))) in *.
  assert (Eb : exp (- (1 / 10) * (64 / 1000) / (5 / 1000)) = a * exp (- (18 / 100))) by (unfold a; rewrite <- exp_plus; f_equal; lra).
  rewrite Eb in L. assert (Ha : / 9 <= a).
  { unfold a. replace (- (1 / 10) * (55 / 1000) / (5 / 1000)) with (- (11 / 10)) by lra. rewrite exp_Ropp. apply Rinv_le_contravar; [apply exp_pos|].
    apply Rle_trans with (exp (1 + 1)); [apply exp_mono; lra|]. rewrite exp_plus. pose proof exp_le_3. pose proof (exp_pos 1). replace 9 with (3 * 3) by ring. apply Rmult_le_compat; lra. }
  assert (Hc : exp (- (18 / 100)) <= 100 / 118).
  { rewrite exp_Ropp. pose proof (exp_ineq1_le (18 / 100)). replace (100 / 118) with (/ (118 / 100)) by lra. apply Rinv_le_contravar; lra. }
  pose proof (exp_pos (- (18 / 100))) as Hc0. set (e := exp (- (18 / 100))) in *. clearbody a e.
  assert (Hae : a * e <= a * (100 / 118)) by (apply Rmult_le_compat_l; lra).
  apply sqrt_le_0 in L; [lra| |]; [assert (0 <= a) by lra; lra|assert (0 <= a * e) by (apply Rmult_le_pos; lra); lra].
Qed.

(** ** C30 *)
Definition rock : cell := {| moist := 0; zb := 0; zs := -1; salt := 0; ustar := 1; mass := [1]; mask := (1, 0); ne := 0 |}.
Definition buried : cell := {| moist := 0; zb := 1; zs := -1; salt := 0; ustar := 1; mass := [1]; mask := (1, 0); ne := 0 |}.
Definition C30_stmt := forall p p' c t t', th_nelayer p = true -> compute p c t = Ok t' -> same_but_ne p p' ->
  exists t0, compute p' c t = Ok t0 /\ length (uth t') = length (uth t0) /\ uth0 t' = uth0 t0 /\ uthf t' = uthf t0 /\
    (zb c <= ne c + 1 / 100 -> Forall (fun u => u = PInf) (uth t')) /\ (ne c + 1 / 100 < zb c -> uth t' = uth t0).
Lemma C30_all : C30_stmt.
Proof. exact compute_ne. Qed.
Definition u225 : R := 85 / 1000 * sqrt ((2650 - 1225 / 1000) / (1225 / 1000) * (981 / 100) * (225 / 1000000)).
Lemma u225_lt : 0 <= u225 < 1 / 2.
Proof.
  unfold u225. split; [apply Rmult_le_pos; [lra|apply sqrt_pos]|]. assert (sqrt ((2650 - 1225 / 1000) / (1225 / 1000) * (981 / 100) * (225 / 1000000)) < 3); [|lra].
  rewrite <- (sqrt_square 3) by lra. apply sqrt_lt_1; lra.
Qed.
Lemma sand_grainsize b1 b2 b3 b4 me : grainsize (sand b1 b2 b3 b4 me) = [Fin u225].
Proof. rewrite grainsize_eq by apply sand_physical. reflexivity. Qed.
Definition t00 : thresholds := {| uth := [Fin 0]; uth0 := [Fin 0]; uthf := [Fin 0] |}.
Lemma rock_compute : compute (sand false false false true "") rock t00 = Ok {| uth := [PInf]; uth0 := [Fin u225]; uthf := [Fin u225] |}.
Proof.
  unfold compute. rewrite sand_grainsize. cbn [sand pdef process_threshold threshold_file th_grainsize th_moisture process_tide th_drylayer th_humidity th_salt th_sheltering th_nelayer andb negb uth uth0 uthf eps bind rock zb zs mask fst snd map].
  destruct (ltb_spec (0 - -1) (- (1 / 1000))); [lra|]. cbn [bind map uth uth0 uthf]. unfold non_erodible. cbn [zb ne].
  cbn. rewrite Rmult_1_r, Rplus_0_r. destruct (leb_spec 0 (0 + 1 / 100)); [reflexivity|lra].
Qed.
Lemma rock_fluid_refuted : exists p c t t' q g k k' x, compute p c t = Ok t' /\ th_nelayer p = true /\ zb c <= ne c /\ uth t' = [guth g] /\ uthf t' = [guthf g] /\
  good_t q /\ process_transport q = true /\ equilibrium q Bagnold 1 g k = Ok k' /\ Cu k' = Fin 0 /\ Cuf k' = Fin x /\ 0 < x.
Proof.
  exists (sand false false false true ""), rock, t00. eexists. exists qdef, {| gu := 1; gustar := 1; gustar0 := 1; guth := PInf; guthf := Fin u225; guth0 := Fin u225; gd := 225 / 1000000 |}, calm.
  eexists. eexists. split; [exact rock_compute|]. split; [reflexivity|]. split; [cbn; lra|]. split; [reflexivity|]. split; [reflexivity|]. split; [exact qdef_good|]. split; [reflexivity|].
  split; [reflexivity|]. cbn [Cu Cuf gustar gu guth guthf gd]. destruct (neqb_spec 1 0) as [_|X]; [|exfalso; apply X; lra]. cbn [andb].
  rewrite capacity_inf by (try exact qdef_good; lra). rewrite capacity_fin. cbn. split; [f_equal; ring|]. split; [reflexivity|]. rewrite Rmult_1_r. apply rmax_pos.
  pose proof u225_lt. assert (0 < (1 - u225) * (1 - u225) * (1 - u225)) by (apply cube_sign; lra). lra.
Qed.
(** With a threshold file the infinite threshold stays after the rock has been buried. *)
Lemma history_refuted : exists p rk br t t' t'', threshold_file p = true /\ th_nelayer p = true /\ uth t = [Fin (2 / 10)] /\ zb rk <= ne rk /\ compute p rk t = Ok t' /\
  ne br + 1 / 2 < zb br /\ compute p br t' = Ok t'' /\ uth t'' = [PInf].
Proof.
  exists (pdef [225 / 1000000] [1] (2 / 100) None true true false false false true ""), rock, buried, {| uth := [Fin (2 / 10)]; uth0 := [Fin 0]; uthf := [Fin 0] |}.
  exists {| uth := [PInf]; uth0 := [Fin 0]; uthf := [Fin 0] |}, {| uth := [PInf]; uth0 := [Fin 0]; uthf := [Fin 0] |}.
  split; [reflexivity|]. split; [reflexivity|]. split; [reflexivity|]. split; [cbn; lra|]. split.
  - unfold compute. cbn [pdef process_threshold threshold_file andb negb bind th_nelayer]. unfold non_erodible. cbn [zb ne rock]. destruct (leb_spec 0 (0 + 1 / 100)); [reflexivity|lra].
  - split; [cbn; lra|]. split; [|reflexivity]. unfold compute. cbn [pdef process_threshold threshold_file andb negb bind th_nelayer]. unfold non_erodible. cbn [zb ne buried].
    destruct (leb_spec 1 (0 + 1 / 100)); [lra|reflexivity].
Qed.

(** ** C59 *)
Lemma options_ok p c t : process_threshold p = true -> threshold_file p = false -> th_drylayer p = false -> th_humidity p = false ->
  (th_moisture p = true -> method_of (method_moist_threshold p) <> None) -> (th_sheltering p = true -> m p <> None) -> exists t', compute p c t = Ok t'.
Proof.
  intros P1 P2 P4 P5 Hm Hs. unfold compute. rewrite P1, P2, P4, P5. cbn [andb negb].
  set (t0 := if th_grainsize p then _ else t). clearbody t0.
  assert (S1 : exists u1, (if th_moisture p then compute_moisture p (moist c) (uth t0)
      else Ok (if (process_tide p && ltb (zb c - zs c) (- eps p))%bool then map (fun _ => PInf) (uth t0) else uth t0)) = Ok u1).
  { destruct (th_moisture p); [|eexists; reflexivity]. unfold compute_moisture. destruct (method_of (method_moist_threshold p)); [eexists; reflexivity|]. exfalso. now apply Hm. }
  destruct S1 as [u1 ->]. cbn [bind]. set (u2 := if th_salt p then _ else u1). clearbody u2.
  assert (S3 : exists u3, (if th_sheltering p then compute_sheltering p (ustar c) (mass c) u2 else Ok u2) = Ok u3).
  { destruct (th_sheltering p); [|eexists; reflexivity]. unfold compute_sheltering. destruct (m p); [eexists; reflexivity|]. exfalso. now apply Hs. }
  destruct S3 as [u3 ->]. cbn [bind]. eexists. reflexivity.
Qed.
Lemma drylayer_raises p c t sh me mo hum : (mo = true -> method_of me <> None) -> compute (optioned p true hum sh me mo) c t = Raise NameError.
Proof.
  intros H. unfold compute. cbn [optioned process_threshold threshold_file th_moisture th_drylayer process_tide eps andb negb]. destruct mo; [|reflexivity].
  unfold compute_moisture. cbn [optioned method_moist_threshold]. destruct (method_of me); [reflexivity|exfalso; now apply H].
Qed.
Lemma humidity_raises p c t sh me mo : (mo = true -> method_of me <> None) -> compute (optioned p false true sh me mo) c t = Raise NameError.
Proof.
  intros H. unfold compute. cbn [optioned process_threshold threshold_file th_moisture th_drylayer th_humidity process_tide eps andb negb]. destruct mo; [|reflexivity].
  unfold compute_moisture. cbn [optioned method_moist_threshold]. destruct (method_of me); [reflexivity|exfalso; now apply H].
Qed.
Lemma sheltering_raises p c t me mo : m p = None -> (mo = true -> method_of me <> None) -> compute (optioned p false false true me mo) c t = Raise KeyError.
Proof.
  intros Hn H. unfold compute. cbn [optioned process_threshold threshold_file th_moisture th_drylayer th_humidity th_sheltering process_tide eps andb negb m]. 
  assert (X : compute_sheltering (optioned p false false true me mo) = fun _ _ _ => Raise KeyError) by (unfold compute_sheltering; cbn [m optioned]; rewrite Hn; reflexivity).
  rewrite X. destruct mo; [|reflexivity].
  unfold compute_moisture. cbn [optioned method_moist_threshold]. destruct (method_of me); [reflexivity|exfalso; now apply H].
Qed.
Lemma unknown_raises p c t : process_threshold p = true -> threshold_file p = false -> th_moisture p = true -> method_moist p = false -> method_of (method_moist_threshold p) = None ->
  compute p c t = Raise KeyError.
Proof.
  intros P1 P2 P3 P4 P5. unfold compute. rewrite P1, P2, P3. cbn [andb negb]. unfold compute_moisture. rewrite P5, P4. reflexivity.
Qed.

(** ** C60 *)
Definition wet_cell : cell := {| moist := 4 / 100; zb := 0; zs := 0; salt := 5 / 10; ustar := 1; mass := [900; 100]; mask := (1, 0); ne := -5 |}.
Definition p60 : params := pdef [2 / 10000; 4 / 1000] [9 / 10; 1 / 10] (2 / 100) (Some (5 / 10)) false true true true true true "belly_johnson".
Lemma C60_ex : physical p60 /\ surface wet_cell /\ 0 <= csalt p60 /\ computes p60 /\
  (th_moisture p60 = true -> exists me, method_of (method_moist_threshold p60) = Some me /\ raises me) /\ (th_sheltering p60 = true -> exists mm, m p60 = Some mm /\ mild p60 mm).
Proof.
  split; [apply pdef_physical; [lra|repeat constructor; lra|cbn; lra]|]. split; [repeat split; cbn; try lra; repeat constructor; lra|]. split; [cbn; lra|].
  split; [repeat split|]. split; [intros _; exists Belly; split; [reflexivity|exact I]|]. intros _. exists (5 / 10). split; [reflexivity|]. repeat split; cbn; lra.
Qed.
(** Sheltering with m = 1 and a bed that does not move: the threshold becomes 0. *)
Lemma shelter_refuted : exists p c t t', physical p /\ surface c /\ computes p /\ th_moisture p = false /\ m p = Some 1 /\ compute p c t = Ok t' /\
  uth t' = [Fin 0] /\ exists u, uth0 t' = [Fin u] /\ 0 < u.
Proof.
  set (p := pdef [225 / 1000000] [1] (2 / 100) (Some 1) false true false false true false "").
  assert (Hp : physical p) by (apply pdef_physical; [lra|repeat constructor; lra|cbn; lra]).
  exists p, {| moist := 0; zb := 0; zs := -1; salt := 0; ustar := 0; mass := [1]; mask := (1, 0); ne := 0 |}, t00.
  exists {| uth := [Fin 0]; uth0 := [Fin u225]; uthf := [Fin 0] |}.
  split; [exact Hp|]. split; [repeat split; cbn; try lra; repeat constructor; lra|]. split; [repeat split|]. split; [reflexivity|]. split; [reflexivity|]. split.
  - unfold compute. rewrite (grainsize_eq p Hp). cbn [p pdef process_threshold threshold_file th_grainsize th_moisture process_tide th_drylayer th_humidity th_salt th_sheltering th_nelayer andb negb uth uth0 uthf eps bind zb zs mask fst snd map grain_size Aa rhog rhoa grav].
    destruct (ltb_spec (0 - -1) (- (1 / 1000))); [lra|]. change (85 / 1000 * sqrt ((2650 - 1225 / 1000) / (1225 / 1000) * (981 / 100) * (225 / 1000000))) with u225.
    unfold compute_sheltering. cbn [p pdef m bind uth uth0 uthf ustar mass immobile rsuml fold_right eleb].
    destruct u225_lt as [U _]. destruct (Rle_dec 0 u225) as [_|]; [|contradiction].
    replace ((1 + 0) / (1 + 0)) with 1 by lra. unfold shelter_factor. cbn [esqrt p pdef beta sigma]. replace ((1 - 1 * 1) * (1 + 1 * 130 / (42 / 10) * 1)) with 0 by lra.
    destruct (Rlt_dec 0 0); [lra|]. rewrite sqrt_0. cbn. rewrite Rmult_0_r, Rmult_0_l, Rplus_0_r. reflexivity.
  - split; [reflexivity|]. exists u225. split; [reflexivity|]. unfold u225. apply Rmult_lt_0_compat; [lra|]. apply sqrt_lt_R0. lra.
Qed.

(** ** C61 *)
Lemma C61_ex : process_threshold p60 = true /\ threshold_file p60 = false /\ th_grainsize p60 = true /\ (exists t', compute p60 wet_cell t00 = Ok t') /\
  compute (sand false false false true "") rock t00 = Ok {| uth := [PInf]; uth0 := [Fin u225]; uthf := [Fin u225] |}.
Proof.
  repeat split; [|exact rock_compute]. apply options_ok; try reflexivity; intros _ H; discriminate.
Qed.
(** Without the grain-size option the salt factor is applied again in every step. *)
Lemma compound_refuted : exists p c t t' t'' x y, process_threshold p = true /\ threshold_file p = false /\ th_grainsize p = false /\ th_salt p = true /\
  compute p c t = Ok t' /\ compute p c t' = Ok t'' /\ uth t' = [Fin x] /\ uth t'' = [Fin y] /\ 0 < x < y.
Proof.
  set (p := pdef [225 / 1000000] [1] (2 / 100) None false false false true false false "").
  set (c := {| moist := 0; zb := 0; zs := -1; salt := 1; ustar := 0; mass := [1]; mask := (1, 0); ne := 0 |}).
  assert (F : salt_factor p (salt c) = 103 / 100).
  { unfold salt_factor, p, c. cbn. replace (1027 / 10000 * 1000 * (35 / 1000 * (1 - 1))) with 0 by ring. rewrite exp_0. ring. }
  assert (S : forall x, compute p c {| uth := [Fin x]; uth0 := [Fin 0]; uthf := [Fin x] |} = Ok {| uth := [Fin (x * (103 / 100))]; uth0 := [Fin 0]; uthf := [Fin (x * (103 / 100))] |}).
  { intros x. unfold compute. cbn [p pdef process_threshold threshold_file th_grainsize th_moisture process_tide th_drylayer th_humidity th_salt th_sheltering th_nelayer andb negb uth uth0 uthf eps bind zb zs mask fst snd map c].
    destruct (ltb_spec (0 - -1) (- (1 / 1000))); [lra|]. cbn [bind]. unfold compute_salt. cbn [map emul eadd salt c]. fold p.
    replace (salt_factor p 1) with (103 / 100) by (rewrite <- F; reflexivity). rewrite !Rmult_1_r, !Rplus_0_r. reflexivity. }
  exists p, c, {| uth := [Fin 1]; uth0 := [Fin 0]; uthf := [Fin 1] |}. eexists. eexists. exists (1 * (103 / 100)), (1 * (103 / 100) * (103 / 100)).
  do 4 (split; [reflexivity|]). split; [apply S|]. split; [apply S|]. split; [reflexivity|]. split; [reflexivity|]. lra.
Qed.

(** ** C62 *)
Lemma C62_ex : let '(s, n, u) := constant_grainspeed 10 8 6 (3 / 10) (4 / 10) (5 / 10) in s = 6 / 10 /\ n = 8 / 10 /\ u = 1.
Proof.
  unfold constant_grainspeed. destruct (neqb_spec (5 / 10) 0) as [_|X]; [|exfalso; apply X; lra]. repeat split; try lra.
  replace (1 * (3 / 10) / (5 / 10) * (1 * (3 / 10) / (5 / 10)) + 1 * (4 / 10) / (5 / 10) * (1 * (4 / 10) / (5 / 10))) with 1 by lra. exact sqrt_1.
Qed.
Definition ddef : dparams := {| dAa := 85 / 1000; drhog := 2650; drhoa := 1225 / 1000; dg := 981 / 100; dv := 15 / 1000000; dkappa := 41 / 100; dsize := 225 / 1000000 |}.
Lemma duran_refuted : exists q uth0 uw ust us un u, good_d q /\ 0 < uw /\ 0 < ust < uth0 /\ duran_grainspeed q uth0 uw uw 0 ust ust 0 0 0 false = (us, un, u) /\ us < 0 /\ 0 < u.
Proof.
  exists ddef, (2 / 10), 4, (15 / 100). destruct (duran_upwind ddef (2 / 10) 4 (15 / 100)) as [v [Hv E]]; [repeat split; cbn; lra|lra|lra|].
  exists (- v), 0, v. split; [repeat split; cbn; lra|]. split; [lra|]. split; [lra|]. split; [exact E|]. lra.
Qed.
Lemma bubble_ex : 5 / 100 <= 5 / 10 /\ 5 / 10 = sqrt (3 / 10 * (3 / 10) + 4 / 10 * (4 / 10)) /\
  duran_grainspeed ddef (2 / 10) 10 6 8 (5 / 10) (3 / 10) (4 / 10) (1 / 10) 0 true = (6 / 100, 8 / 100, 1 / 10).
Proof.
  split; [lra|]. split.
  - replace (3 / 10 * (3 / 10) + 4 / 10 * (4 / 10)) with ((5 / 10) * (5 / 10)) by lra. rewrite sqrt_square; lra.
  - unfold duran_grainspeed, d_dir. destruct (Rle_dec (5 / 100) (5 / 10)); [|lra]. f_equal; [f_equal; field|].
    replace (1 / 10 * (3 / 10 / (5 / 10)) * (1 / 10 * (3 / 10 / (5 / 10))) + 1 / 10 * (4 / 10 / (5 / 10)) * (1 / 10 * (4 / 10 / (5 / 10)))) with ((1 / 10) * (1 / 10)) by field. rewrite sqrt_square; lra.
Qed.
Lemma very_wet_ex : moisture1 (mix (2 / 100) true "cornelis") Cornelis (1 / 10) (Fin 1) = PInf.
Proof. apply moisture1_wet. unfold mass_content. cbn. lra. Qed.
Lemma gs_ex : process_transport qdef = true /\ (4 <> 1)%nat.
Proof. split; [reflexivity|lia]. Qed.
Lemma C58_ex2 : good_th (Fin (2 / 10)) /\ exists a b,
  capacity qdef Lettau (225 / 1000000) (3 / 10) 1 (Fin (2 / 10)) = Fin a /\ capacity qdef Lettau (225 / 1000000) (4 / 10) 1 (Fin (2 / 10)) = Fin b /\ a < b.
Proof.
  split; [right; exists (2 / 10); split; [reflexivity|lra]|]. rewrite !capacity_fin. eexists. eexists. split; [reflexivity|]. split; [reflexivity|]. cbn. rewrite !Rmax_right by lra. lra.
Qed.
Lemma switch_refuted : exists p c t, physical p /\ surface c /\ process_threshold p = true /\ th_drylayer p = true /\ compute p c t = Raise NameError.
Proof.
  exists (optioned (sand false false false false "") true false false "" false), {| moist := 0; zb := 0; zs := -1; salt := 0; ustar := 0; mass := [1]; mask := (1, 0); ne := 0 |}, t00.
  split; [repeat split; cbn; try lra; repeat constructor; lra|]. split; [repeat split; cbn; try lra; repeat constructor; lra|]. split; [reflexivity|]. split; [reflexivity|].
  apply drylayer_raises. discriminate.
Qed.
