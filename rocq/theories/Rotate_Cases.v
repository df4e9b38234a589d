From Verif Require Import Base Num Time_Model Time_Spec Time_Proofs Time_Cases Rotate_Model Rotate_Spec Rotate_Proofs.
From Coq Require Import Reals Lra.
Open Scope R_scope.

Definition st0 : vstate :=
  {| xy := [(0, 0); (2, 0)]; tau := [(1, 0)]; tau0 := [(1, 0)]; ustar := [(1, 0)]; ustar0 := [(1, 0)]; uw := [(5, 1)];
     q := [[(0, 0)]]; us := [[(1, 0)]]; udir := [270] |}.
Lemma quarter : radians 90 = PI / 2.
Proof. unfold radians. field. Qed.
Lemma rotated_st0 : hd (0, 0) (xy (grid_rotate 90 st0)) = (1, 1).
Proof.
  unfold grid_rotate, st0, rotate, rotate1, rmean, rsum. cbn [xy map hd fst snd fold_right length].
  rewrite quarter, cos_PI2, sin_PI2. cbn [INR]. f_equal; field.
Qed.

Lemma skip_leaves_rotated : exists p ob req c c' ev alpha f st, (req < -1)%Q /\ update p ob req c = Ok (c', ev) /\ idle f /\
  xy (apply_events alpha f ev st) <> xy st.
Proof.
  destruct ex_skip as [ev H]. exists base, windy, (-3600)%Q, (initial_clock base). eexists. exists ev, 90, (fun _ x => x), st0.
  split; [reflexivity|]. split; [exact H|]. split; [intros e x; reflexivity|].
  rewrite (aborted_rotated base windy (-3600)%Q (initial_clock base) _ ev 90 (fun _ x => x) st0 H); [|reflexivity|intros e x; reflexivity].
  intros E. apply (f_equal (hd (0, 0))) in E. rewrite rotated_st0 in E. cbn in E. injection E. lra.
Qed.

(** The solvers set q to the concentration times the saltation velocity (model.py:1444-1445, 1824-1825). *)
Definition solver (ct : R) (e : event) (st : vstate) : vstate :=
  match e with
  | Solve => {| xy := xy st; tau := tau st; tau0 := tau0 st; ustar := ustar st; ustar0 := ustar0 st; uw := uw st;
                q := map (map (fun v => (ct * fst v, ct * snd v))) (us st); us := us st; udir := udir st |}
  | _ => st
  end.
Lemma ex_update : exists c', update base windy (-1)%Q (initial_clock base) = Ok (c',
  [WindInterpolate; RotateForward; WindShear; FenceShear; HydroInterpolate; HydroUpdate; MixTopLayer;
   Threshold; Equilibrium; Solve; BedUpdate; AngleOfRepose; Avalanche; WetBedReset; AverageChange; RotateBack]) /\ count c' = 1%nat.
Proof. eexists. split; [vm_compute; reflexivity|reflexivity]. Qed.
Lemma flux_not_parallel : exists p ob c c' ev alpha st, update p ob (-1)%Q c = Ok (c', ev) /\ count c' = S (count c) /\
  let st' := apply_events alpha (solver 1) ev st in q st' <> us st'.
Proof.
  destruct ex_update as [c' [H1 H2]]. exists base, windy, (initial_clock base), c'. eexists. exists 90, st0.
  split; [exact H1|]. split; [exact H2|]. cbv zeta. unfold apply_events. cbn [fold_left apply_event solver].
  unfold grid_rotate, st0, rotate, rotate1. cbn [xy tau tau0 ustar ustar0 uw q us udir map fst snd].
  rewrite radians_opp, quarter, cos_neg, sin_neg, cos_PI2, sin_PI2. intros E. injection E. intros _ E1. lra.
Qed.
Lemma ex_idle : idle (fun _ x => x) /\ keeps_grid (solver 1).
Proof. split; [intros e st; reflexivity|]. intros e st. destruct e; reflexivity. Qed.
Lemma ex_vectors : nth_error (vector_fields st0) 4 = Some [(5, 1)] /\ nth_error [(5, 1)] 0 = Some (5, 1) /\
  nth_error (xy st0) 0 = Some (0, 0) /\ nth_error (xy st0) 1 = Some (2, 0).
Proof. repeat split. Qed.
