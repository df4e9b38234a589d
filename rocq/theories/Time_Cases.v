(** Concrete cases and counterexamples for the clock properties. *)
From Verif Require Import Base Num Time_Model Time_Spec Time_Proofs.
Open Scope Q_scope.

Definition base : params :=
  {| p_dt := 60; p_accfac := 1; p_tstart := 0; p_tstop := 3600; p_scheme := Euler_backward; p_CFL := 1;
     p_max_bedlevel_change := 999; p_fences := true; p_vegetation := false; p_dune_erosion := false |}.
Definition with_scheme (s : scheme) (p : params) : params :=
  {| p_dt := p_dt p; p_accfac := p_accfac p; p_tstart := p_tstart p; p_tstop := p_tstop p; p_scheme := s;
     p_CFL := p_CFL p; p_max_bedlevel_change := p_max_bedlevel_change p; p_fences := p_fences p;
     p_vegetation := p_vegetation p; p_dune_erosion := p_dune_erosion p |}.
Definition with_limit (b : Q) (p : params) : params :=
  {| p_dt := p_dt p; p_accfac := p_accfac p; p_tstart := p_tstart p; p_tstop := p_tstop p; p_scheme := p_scheme p;
     p_CFL := p_CFL p; p_max_bedlevel_change := b; p_fences := p_fences p;
     p_vegetation := p_vegetation p; p_dune_erosion := p_dune_erosion p |}.
Definition with_stop (b : Q) (p : params) : params :=
  {| p_dt := p_dt p; p_accfac := p_accfac p; p_tstart := p_tstart p; p_tstop := b; p_scheme := p_scheme p;
     p_CFL := p_CFL p; p_max_bedlevel_change := p_max_bedlevel_change p; p_fences := p_fences p;
     p_vegetation := p_vegetation p; p_dune_erosion := p_dune_erosion p |}.
Definition explicit := with_scheme Euler_forward base.

(** Two cells, wind of 10 and 5 m/s along s on cells of 1 m, none along n. *)
Definition windy : obs := {| o_calm := false; o_cs := (10, [5]); o_cn := (0, [0]); o_dzb := (0, [0]) |}.
Definition calm : obs := {| o_calm := true; o_cs := (0, [0]); o_cn := (0, [0]); o_dzb := (0, [0]) |}.
Definition changed (a b : Q) : obs := {| o_calm := false; o_cs := (10, [5]); o_cn := (0, [0]); o_dzb := (a, [b]) |}.

Lemma base_implicit : implicit base /\ unlimited base /\ 0 < p_dt base * p_accfac base /\ p_tstart base < p_tstop base.
Proof. repeat split. now left. Qed.
Lemma explicit_ok : p_scheme explicit = Euler_forward /\ 0 < p_CFL explicit /\ unlimited explicit /\ 0 < p_dt explicit
  /\ 0 < p_accfac explicit /\ p_tstart explicit < p_tstop explicit.
Proof. repeat split. Qed.
Lemma windy_largest : largest 10 (o_cs windy) /\ largest 0 (o_cn windy) /\ 0 < 10 + 0.
Proof.
  repeat split; cbn; try tauto; intros x H; decompose [or] H; subst; try tauto; lra.
Qed.
Lemma windy_bounded : forall (k : nat) ms mn, largest ms (o_cs windy) -> largest mn (o_cn windy) -> 0 < ms + mn <= 10.
Proof.
  intros _ ms mn [H1 H2] [H3 H4]. cbn in H1, H3. assert (10 <= ms) by (apply H2; now left).
  decompose [or] H1; decompose [or] H3; subst; try tauto; lra.
Qed.

Lemma explicit_not_requested : exists p ob req c c' ev,
  0 < req /\ update p ob req c = Ok (c', ev) /\ p_scheme p = Euler_forward /\ ~ t c' == t c + req * p_accfac p.
Proof.
  exists explicit, windy, 60, (initial_clock explicit). eexists; eexists. split; [reflexivity|].
  split; [vm_compute; reflexivity|]. split; [reflexivity|]. vm_compute. discriminate.
Qed.
Lemma skip_runs_processes : exists p ob req c c' ev, req < -1 /\ update p ob req c = Ok (c', ev) /\ In FenceShear ev /\ In WindShear ev.
Proof.
  exists base, windy, (-3600), (initial_clock base). eexists; eexists. split; [reflexivity|].
  split; [vm_compute; reflexivity|]. cbn. tauto.
Qed.
Lemma ex_skip : exists ev, update base windy (-3600) (initial_clock base)
  = Ok ({| t := 3600; dt := -3600; count := 0; has_dt_array := false |}, ev).
Proof. eexists. vm_compute. reflexivity. Qed.

Lemma ex_points : points 0 3600 60 = 61%nat /\ points 0 3599 60 = 60%nat.
Proof. split; vm_compute; reflexivity. Qed.
Lemma zero_length_run : exists p env, implicit p /\ unlimited p /\ 0 < p_dt p * p_accfac p /\ p_tstart p <= p_tstop p /\
  forall fuel, run p env (S fuel) = Raise ZeroDivisionError.
Proof.
  exists (with_stop 0 base), (fun _ => windy). split; [now left|]. split; [reflexivity|]. split; [reflexivity|].
  split; [discriminate|]. intros fuel. reflexivity.
Qed.

(** Wind during the first update only. *)
Definition gust : nat -> obs := fun k => match k with O => windy | _ => calm end.
Lemma calm_stuck_refuted : exists p env, p_scheme p = Euler_forward /\ 0 < p_dt p /\ p_tstart p < p_tstop p /\
  forall fuel, run p env fuel = Ok None.
Proof.
  exists explicit, gust. split; [reflexivity|]. split; [reflexivity|]. split; [reflexivity|].
  intros [|fuel]; [reflexivity|]. unfold run.
  assert (E : run_loop explicit gust 0 (S fuel) (initial_clock explicit) = Ok None); [|now rewrite E].
  cbn [run_loop]. change (Qle_bool (t (initial_clock explicit)) (p_tstop explicit)) with true. cbv iota.
  assert (E : pass explicit (gust 0) (initial_clock explicit)
              = Ok {| t := 1#10; dt := 1#10; count := 1; has_dt_array := true |}) by (vm_compute; reflexivity).
  rewrite E. cbn [bind].
  assert (G : forall f k c, has_dt_array c = true -> t c <= p_tstop explicit -> run_loop explicit (fun j => gust (S j)) k f c = Ok None).
  { apply (explicit_calm_stuck explicit (fun j => gust (S j))); try reflexivity; [vm_compute; discriminate|]. intros k. vm_compute. discriminate. }
  assert (Sh : forall f k c, run_loop explicit gust (S k) f c = run_loop explicit (fun j => gust (S j)) k f c).
  { induction f as [|f IH]; intros k c; cbn [run_loop]; [reflexivity|]. destruct (Qle_bool _ _); [|reflexivity].
    destruct (pass explicit (gust (S k)) c) as [c'|e]; cbn [bind]; [apply IH|reflexivity]. }
  rewrite Sh. apply G; [reflexivity|]. vm_compute. discriminate.
Qed.

(** A first step that raises some cell by 2 m while 1 m is allowed, then calm for ever. *)
Definition limited1 : params := with_limit 1 base.
Definition stale : obs := {| o_calm := true; o_cs := (0, [0]); o_cn := (0, [0]); o_dzb := (2, [0]) |}.
Definition storm : nat -> obs := fun k => match k with O => windy | _ => stale end.
Lemma stall_refuted : exists p env, implicit p /\ 0 < p_dt p * p_accfac p /\ p_tstart p < p_tstop p /\
  forall fuel, run p env fuel = Ok None.
Proof.
  exists limited1, storm. split; [now left|]. split; [reflexivity|]. split; [reflexivity|].
  intros [|fuel]; [reflexivity|]. unfold run.
  assert (E : run_loop limited1 storm 0 (S fuel) (initial_clock limited1) = Ok None); [|now rewrite E].
  cbn [run_loop]. change (Qle_bool (t (initial_clock limited1)) (p_tstop limited1)) with true. cbv iota.
  assert (E : pass limited1 (storm 0) (initial_clock limited1)
              = Ok {| t := 60; dt := 60; count := 1; has_dt_array := true |}) by (vm_compute; reflexivity).
  rewrite E. cbn [bind].
  assert (Sh : forall f k c, run_loop limited1 storm (S k) f c = run_loop limited1 (fun j => storm (S j)) k f c).
  { induction f as [|f IH]; intros k c; cbn [run_loop]; [reflexivity|]. destruct (Qle_bool _ _); [|reflexivity].
    destruct (pass limited1 (storm (S k)) c) as [c'|e]; cbn [bind]; [apply IH|reflexivity]. }
  rewrite Sh. apply calm_stall with (m := 2); try reflexivity.
  - now left.
  - split; [|reflexivity]. vm_compute. discriminate.
  - vm_compute. discriminate.
  - intros k. split; [cbn; tauto|]. cbn. intros x H. decompose [or] H; subst; try tauto; lra.
  - now right.
  - vm_compute. discriminate.
Qed.
Lemma ex_stall : implicit limited1 /\ limited limited1 /\ ~ p_tstart limited1 == p_tstop limited1 /\ 0 < p_accfac limited1
  /\ 0 < p_dt limited1 /\ p_max_bedlevel_change limited1 < 2 /\ largest 2 (o_dzb stale) /\
  60 + p_accfac limited1 * 60 * p_max_bedlevel_change limited1 / (2 - p_max_bedlevel_change limited1) <= p_tstop limited1.
Proof.
  split; [now left|]. split; [split; [vm_compute; discriminate|reflexivity]|]. split; [vm_compute; discriminate|].
  split; [reflexivity|]. split; [reflexivity|]. split; [reflexivity|]. split; [|vm_compute; discriminate].
  split; [cbn; tauto|]. cbn. intros x H. decompose [or] H; subst; try tauto; lra.
Qed.
Lemma ex_calm_stuck : p_scheme explicit = Euler_forward /\ 0 < p_CFL explicit /\ ~ p_tstart explicit == p_tstop explicit
  /\ dtref calm <= 0 /\ p_tstart explicit < p_tstop explicit.
Proof. repeat split; vm_compute; discriminate. Qed.

(** ** C12 *)
Definition centimetres : params := with_limit (1#10) base.
Lemma erosion_backwards : exists p ob c c' ev, implicit p /\ limited p /\ 0 < p_dt p /\ 0 < dt c /\
  update p ob (-1) c = Ok (c', ev) /\ dt c' < 0 /\ t c' < t c.
Proof.
  exists centimetres, (changed (-2) (-1)), {| t := 60; dt := 60; count := 1; has_dt_array := true |}.
  eexists; eexists. split; [now left|]. split; [split; [vm_compute; discriminate|reflexivity]|].
  split; [reflexivity|]. split; [reflexivity|]. split; [vm_compute; reflexivity|]. split; reflexivity.
Qed.
Lemma erosion_unbounded : exists p ob c c' ev x, implicit p /\ limited p /\ 0 < p_dt p /\ 0 < dt c /\
  (exists y, cell y (o_dzb ob) /\ 0 < y) /\ cell x (o_dzb ob) /\
  update p ob (-1) c = Ok (c', ev) /\ x * (dt c' / dt c) < - p_max_bedlevel_change p.
Proof.
  exists centimetres, (changed (-5) (1#100)), {| t := 60; dt := 60; count := 1; has_dt_array := true |}.
  eexists; eexists. exists (-5). split; [now left|]. split; [split; [vm_compute; discriminate|reflexivity]|].
  split; [reflexivity|]. split; [reflexivity|]. split.
  { exists (1#100). split; [cbn; tauto|reflexivity]. }
  split; [cbn; tauto|]. split; [vm_compute; reflexivity|]. reflexivity.
Qed.
Lemma ex_limited : limited centimetres /\ implicit centimetres /\ 0 < p_dt centimetres /\
  (exists x, cell x (o_dzb (changed (1#2) (-1))) /\ 0 < x) /\
  set_timestep centimetres (changed (1#2) (-1)) 60 60 (-1) = (true, 60, 60 * (1#10) / (1#2)).
Proof.
  split; [split; [vm_compute; discriminate|reflexivity]|]. split; [now left|]. split; [reflexivity|]. split.
  { exists (1#2). split; [cbn; tauto|reflexivity]. }
  vm_compute. reflexivity.
Qed.
Lemma ex_first_step : set_timestep centimetres (changed 5 5) 0 0 (-1) = (true, 0, 60).
Proof. vm_compute. reflexivity. Qed.

(** An unknown scheme, first in a calm and then with wind. *)
Lemma ex_unknown : p_scheme (with_scheme Unknown_scheme base) = Unknown_scheme /\ o_calm windy = false /\ o_calm calm = true /\
  update (with_scheme Unknown_scheme base) windy (-1) (initial_clock base) = Raise ValueError.
Proof. repeat split. Qed.
Lemma ex_no_step : p_tstop (with_stop (-60) base) < p_tstart (with_stop (-60) base).
Proof. reflexivity. Qed.
