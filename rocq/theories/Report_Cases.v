(** Concrete cases: fluxes and pickup in the output. *)
From Coq Require Import QArith Lia Lqa List Bool Arith.
From Verif Require Import Base Num Utils_Model Utils_Spec Bed_Model Bed_Spec Solver_Model Solver_Spec Linear Solver_Cases Run_Model Run_Spec Run_Proofs Run_Whole Run_Cases Report_Model Report_Spec Report_Proofs Report_Pickup.
From Coq Require Import Reals Lra.
Import ListNotations.
Local Open Scope R_scope.

Lemma mag34 c : 0 <= c -> magnitude (3 * c, 4 * c) = 5 * c.
Proof. intros H. unfold magnitude. cbn [fst snd]. replace (Rsqr (3 * c) + Rsqr (4 * c)) with (Rsqr (5 * c)) by (unfold Rsqr; ring). apply sqrt_Rsqr. lra. Qed.
(** A flux of five before the output, then ten and fifteen. *)
Definition before145 : list event := [Wind (3 * 1) (4 * 1)].
Definition steps145 : list (R * R) := [(3 * 2, 4 * 2); (3 * 3, 4 * 3)].
Lemma c145_case : total (course (interval before145 steps145)) = 15 /\ sum_of (map magnitude steps145) = 25 /\ average (course (interval before145 steps145)) = 15 / 2 /\ fq (course (interval before145 steps145)) = 15.
Proof.
  assert (T : total (course (interval before145 steps145)) = 15).
  { rewrite flux_sum. cbn [steps145 before145 last_flux map sum_of fold_right last]. rewrite !mag34 by lra. lra. }
  split; [exact T|]. split; [cbn [steps145 map sum_of fold_right]; rewrite !mag34 by lra; lra|]. split.
  - unfold average. rewrite T. replace (count _) with 2%nat by reflexivity. cbn [INR]. lra.
  - change (hypot (3 * 3) (4 * 3) = 15). rewrite hypot_mag, mag34; lra.
Qed.
Lemma c145_var_case : (2 <= length steps145)%nat /\ variance (course (interval before145 steps145)) = 25 / 2 /\ spread (map magnitude steps145) = 25 / 2 /\ spread [5; 10] = 25 / 2 /\
  least (course (interval before145 steps145)) = Some 5.
Proof.
  assert (S1 : spread [5; 10] = 25 / 2). { unfold spread, mean_of, Rsqr. cbn. field. }
  split; [cbn; lia|]. split; [rewrite flux_spread by (cbn; lia); cbn [steps145 before145 last_flux map removelast]; rewrite !mag34 by lra; rewrite <- S1; do 2 f_equal; [lra | f_equal; lra]|].
  split; [unfold spread, mean_of, Rsqr; cbn [steps145 map]; rewrite !mag34 by lra; cbn; field|]. split; [exact S1|].
  destruct (flux_least before145 steps145 ltac:(discriminate)) as (m & -> & H1 & H2). f_equal. cbn [steps145 before145 last_flux map removelast In] in *. rewrite !mag34 in * by lra.
  pose proof (H2 _ (or_introl eq_refl)). destruct H1 as [H1|[H1|[]]]; lra.
Qed.
Lemma c145_sum : exists xs, no_calm xs /\ total (course xs) <> sum_of (map magnitude (fluxes xs [])).
Proof.
  exists (interval before145 steps145). split; [intros [H | [H | [H | [H | []]]]]; discriminate|]. destruct c145_case as (-> & H & _). change (fluxes (interval before145 steps145) []) with steps145. rewrite H. lra.
Qed.
(** A single step with wind: the largest flux is said to be zero. *)
Lemma c145_most : exists a b, most (course [Wind a b]) = Some 0 /\ 0 < magnitude (a, b).
Proof. exists (3 * 1), (4 * 1). split; [reflexivity|]. rewrite mag34; lra. Qed.
(** Wind, then calm. *)
Lemma flux_calm before n : fq (course (before ++ repeat Calm n)) = magnitude (last_flux before (0, 0)).
Proof.
  unfold course. rewrite fold_left_app. assert (G : forall st, fq st = hypot (fs st) (fn st) -> fq (fold_left happen (repeat Calm n) st) = fq st).
  { induction n as [|n IH]; intros st H; cbn [repeat fold_left]; [reflexivity|]. rewrite IH by reflexivity. symmetry. exact H. }
  rewrite G; [apply before_q | apply (course_q before at_start start_q)].
Qed.
Lemma c146_case : fq (course (before145 ++ repeat Calm 7)) = 5.
Proof. rewrite flux_calm. cbn [before145 last_flux]. rewrite mag34; lra. Qed.
Lemma c146_still : exists xs, 0 < fq (course (xs ++ [Calm])).
Proof. exists (before145 ++ repeat Calm 6). replace ((before145 ++ repeat Calm 6) ++ [Calm]) with (before145 ++ repeat Calm 7) by reflexivity. rewrite c146_case. lra. Qed.

Local Open Scope Q_scope.
(** A storm and a breeze in which some of the sand settles. *)
Definition weather147 : list (option (list wind)) := [Some [breeze 70]; Some [breeze 4]].
Lemma fair147 : fair_weather (gauss 4) 1 k123 one_area weather147.
Proof. intros ws [E | [E | []]]; injection E as <-; (split; [reflexivity|]); intros w [<- | []]; apply breeze_fair; Lqa.lra. Qed.
Definition pickups (x : result (option (list state))) : option (list Q) := match x with Ok (Some h) => Some (map (fun j => Qred (pickup_sum h j)) (seq 0 4)) | _ => None end.
Definition losses (s : state) (x : result (option (state * list (list outcome)))) : option (list Q) := match x with Ok (Some (s', _)) => Some (map (fun j => Qred (eroded e123b s s' j)) (seq 0 4)) | _ => None end.
Lemma c147_case : sound_setup 1 k123 e123b /\ sound_state 1 k123 s123b /\ fair_weather (gauss 4) 1 k123 one_area weather147 /\ always_windy weather147 /\
  match run (gauss 4) k123 e123b true s123b weather147 with Ok (Some (_, t)) => forallb (smoothb (sand s123b)) t | _ => false end = true /\
  pickups (history (gauss 4) k123 e123b true s123b weather147) = Some [34; 4901042 # 177147; 36757550 # 1594323; 34] /\ losses s123b (run (gauss 4) k123 e123b true s123b weather147) = Some [34; 4901042 # 177147; 36757550 # 1594323; 34].
Proof.
  split; [apply setup123b|]. split; [apply state123b|]. split; [apply fair147|]. split; [intros [H | [H | []]]; discriminate|]. split; [vm_compute; reflexivity|]. split; vm_compute; reflexivity.
Qed.
(** A storm, calm, a breeze: the pickup of the storm counts twice. *)
Lemma c147_twice : exists sp nf k e g weather s s' trace h j, sound_setup nf k e /\ sound_state nf k s /\ fair_weather sp nf k g weather /\ run sp k e true s weather = Ok (Some (s', trace)) /\
  history sp k e true s weather = Ok (Some h) /\ (forall os, In os trace -> smooth (sand s) os) /\ (j < number_of_cells k)%nat /\ eroded e s s' j < pickup_sum h j.
Proof.
  assert (H : match run123b, history (gauss 4) k123 e123b true s123b weather123b with
              | Ok (Some (s', t)), Ok (Some h) => forallb (smoothb (sand s123b)) t && Qltb (eroded e123b s123b s' 1) (pickup_sum h 1) | _, _ => false end = true) by (vm_compute; reflexivity).
  unfold run123b in H. destruct (run (gauss 4) k123 e123b true s123b weather123b) as [[[s' t]|]|] eqn:E; [|discriminate H|discriminate H]. destruct (history (gauss 4) k123 e123b true s123b weather123b) as [[h|]|] eqn:E'; [|discriminate H|discriminate H].
  apply andb_prop in H. destruct H as (H1 & H2). rewrite forallb_forall in H1.
  exists (gauss 4), 1%nat, k123, e123b, one_area, weather123b, s123b, s', t, h, 1%nat. split; [apply setup123b|]. split; [apply state123b|]. split; [apply fair123b|]. split; [exact E|]. split; [exact E'|].
  split; [intros os Hos; apply smoothb_ok, H1, Hos|]. split; [cbn; lia|]. destruct (Qltb_spec (eroded e123b s123b s' 1) (pickup_sum h 1)); [assumption | discriminate].
Qed.
(** A storm and two calm steps. *)
Lemma c147_calm_case : sound_setup 1 k123 e123b /\ sound_state 1 k123 s123b /\ fair_weather (gauss 4) 1 k123 one_area [Some [breeze 70]] /\ always_windy [Some [breeze 70]] /\
  match run (gauss 4) k123 e123b true s123b [Some [breeze 70]] with Ok (Some (_, t)) => forallb (smoothb (sand s123b)) t | _ => false end = true /\
  pickups (history (gauss 4) k123 e123b true s123b ([Some [breeze 70]] ++ repeat None 2)) = Some [90; 90; 90; 90] /\ losses s123b (run (gauss 4) k123 e123b true s123b [Some [breeze 70]]) = Some [30; 30; 30; 30].
Proof.
  split; [apply setup123b|]. split; [apply state123b|]. split; [intros ws [E | []]; injection E as <-; (split; [reflexivity|]); intros w [<- | []]; apply breeze_fair; Lqa.lra|].
  split; [intros [H | []]; discriminate|]. split; [vm_compute; reflexivity|]. split; vm_compute; reflexivity.
Qed.
