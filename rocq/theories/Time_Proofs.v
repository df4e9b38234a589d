From Verif Require Import Base Num Time_Model Time_Spec.
Open Scope Q_scope.

Lemma amax_largest a : largest (amax a) a.
Proof.
  destruct a as [x l]. unfold largest, amax. cbn [fst snd]. split; [apply qmaxl_in|].
  destruct (qmaxl_ge x l) as [H1 H2]. intros y [<-|Hy]; [exact H1|now apply H2].
Qed.
Lemma largest_amax m a : largest m a -> amax a == m.
Proof.
  intros [H1 H2]. destruct (amax_largest a) as [H3 H4]. apply Qle_antisym; [now apply H2|now apply H4].
Qed.

Lemma limit_unlimited p ob prev d : unlimited p -> limit_bedlevel p ob prev d = d.
Proof.
  unfold unlimited, limit_bedlevel. intros H. destruct (Qeq_bool_spec (p_max_bedlevel_change p) 999); [reflexivity|tauto].
Qed.
Lemma limit_le p ob prev d : limit_bedlevel p ob prev d <= d.
Proof.
  unfold limit_bedlevel. destruct (_ && _); [apply qmin_l|lra].
Qed.

Lemma qabs_neg a : a < 0 -> qabs a == - a.
Proof. unfold qabs. qsplit; lra. Qed.

(** ** C10 *)
Lemma ts_skip p ob now prev req : req < -1 -> set_timestep p ob now prev req = (false, now + qabs req, req).
Proof.
  intros H. unfold set_timestep. destruct (Qltb_spec 0 req); [lra|]. destruct (Qltb_spec req (-1)); [|lra]. reflexivity.
Qed.
Lemma ts_implicit p ob now prev req : implicit p -> -1 <= req ->
  set_timestep p ob now prev req = (true, now, limit_bedlevel p ob prev (if Qltb 0 req then req else p_dt p)).
Proof.
  intros Hi H. unfold set_timestep. destruct (Qltb_spec req (-1)) as [Hl|_]; [lra|]. rewrite andb_false_r.
  destruct Hi as [-> | ->]; reflexivity.
Qed.
Lemma ts_explicit p ob now prev req : p_scheme p = Euler_forward -> 0 < p_CFL p -> 0 < dtref ob -> -1 <= req ->
  set_timestep p ob now prev req =
  (true, now, limit_bedlevel p ob prev (qmin (if Qltb 0 req then req else p_dt p) (p_CFL p / dtref ob))).
Proof.
  intros Hs Hc Hd H. unfold set_timestep. destruct (Qltb_spec req (-1)) as [Hl|_]; [lra|]. rewrite andb_false_r, Hs.
  destruct (Qltb_spec 0 (p_CFL p)); [|lra]. destruct (Qltb_spec 0 (dtref ob)); [reflexivity|lra].
Qed.
Lemma ts_explicit_calm p ob now prev req : p_scheme p = Euler_forward -> 0 < p_CFL p -> dtref ob <= 0 -> -1 <= req ->
  set_timestep p ob now prev req = (false, now, qmin (if Qltb 0 req then req else p_dt p) 1).
Proof.
  intros Hs Hc Hd H. unfold set_timestep. destruct (Qltb_spec req (-1)) as [Hl|_]; [lra|]. rewrite andb_false_r, Hs.
  destruct (Qltb_spec 0 (p_CFL p)); [|lra]. destruct (Qltb_spec 0 (dtref ob)); [lra|reflexivity].
Qed.

Lemma update_go p ob req c d : set_timestep p ob (t c) (dt c) req = (true, t c, d) -> p_scheme p <> Unknown_scheme ->
  exists ev, update p ob req c =
    Ok ({| t := t c + d * p_accfac p; dt := d; count := S (count c); has_dt_array := has_dt_array c |}, ev).
Proof.
  intros H Hs. unfold update. rewrite H. cbn [negb]. destruct (p_scheme p), (o_calm ob); try congruence; eexists; reflexivity.
Qed.

Lemma implicit_known p : implicit p -> p_scheme p <> Unknown_scheme.
Proof. intros [H|H]; rewrite H; discriminate. Qed.

Lemma step_requested p ob req c : implicit p -> unlimited p -> 0 < req ->
  exists c' ev, update p ob req c = Ok (c', ev) /\ t c' == t c + req * p_accfac p /\ count c' = S (count c).
Proof.
  intros Hi Hu Hr. destruct (update_go p ob req c req) as [ev E].
  - rewrite ts_implicit, limit_unlimited by (assumption || lra). destruct (Qltb_spec 0 req); [reflexivity|lra].
  - now apply implicit_known.
  - eexists; exists ev. split; [exact E|]. cbn [t count]. split; [lra|reflexivity].
Qed.
Lemma step_configured p ob req c : implicit p -> unlimited p -> -1 <= req -> req <= 0 ->
  exists c' ev, update p ob req c = Ok (c', ev) /\ t c' == t c + p_dt p * p_accfac p /\ count c' = S (count c).
Proof.
  intros Hi Hu Hr Hr'. destruct (update_go p ob req c (p_dt p)) as [ev E].
  - rewrite ts_implicit, limit_unlimited by (assumption || lra). destruct (Qltb_spec 0 req); [lra|reflexivity].
  - now apply implicit_known.
  - eexists; exists ev. split; [exact E|]. cbn [t count]. split; [lra|reflexivity].
Qed.
Lemma dtref_largest ob ms mn : largest ms (o_cs ob) -> largest mn (o_cn ob) -> dtref ob == ms + mn.
Proof. intros H1 H2. unfold dtref. now rewrite (largest_amax _ _ H1), (largest_amax _ _ H2). Qed.

Lemma step_explicit p ob req c ms mn : p_scheme p = Euler_forward -> 0 < p_CFL p -> unlimited p -> 0 < p_accfac p ->
  0 < req -> largest ms (o_cs ob) -> largest mn (o_cn ob) -> 0 < ms + mn ->
  exists c' ev, update p ob req c = Ok (c', ev) /\ t c' == t c + dt c' * p_accfac p /\
    0 < dt c' /\ dt c' <= req /\ dt c' * (ms + mn) <= p_CFL p /\
    (dt c' == req \/ dt c' * (ms + mn) == p_CFL p).
Proof.
  intros Hs Hc Hu Ha Hr Hms Hmn Hp. pose proof (dtref_largest ob ms mn Hms Hmn) as Hd.
  destruct (update_go p ob req c (qmin req (p_CFL p / dtref ob))) as [ev E].
  - rewrite ts_explicit, limit_unlimited by (assumption || lra). destruct (Qltb_spec 0 req); [reflexivity|lra].
  - congruence.
  - eexists; exists ev. split; [exact E|]. cbn [t dt].
    assert (Hq : 0 < p_CFL p / dtref ob) by (apply Qlt_shift_div_l; lra).
    assert (Hm : p_CFL p / dtref ob * (ms + mn) == p_CFL p) by (rewrite <- Hd; field; lra).
    split; [reflexivity|]. split; [now apply qmin_pos|]. split; [apply qmin_l|].
    destruct (qmin_cases req (p_CFL p / dtref ob)) as [[-> Hx]|[-> Hx]].
    + split; [|left; reflexivity]. nra.
    + split; [lra|right; exact Hm].
Qed.

Lemma skip_events p ob e : In e (before_timestep p ob) -> ~ morphology e.
Proof.
  unfold before_timestep, when. rewrite !in_app_iff. cbn [In].
  destruct (o_calm ob), (p_fences p), (p_vegetation p); cbn [negb In];
    intros H; decompose [or] H; subst; cbn [morphology]; tauto.
Qed.
Lemma step_skip p ob req c : req < -1 ->
  exists c' ev, update p ob req c = Ok (c', ev) /\ t c' == t c - req /\ count c' = count c /\
    forall e, In e ev -> ~ morphology e.
Proof.
  intros H. unfold update. rewrite ts_skip by exact H. cbn [negb]. eexists; eexists. split; [reflexivity|].
  cbn [t count]. split; [rewrite qabs_neg by lra; lra|]. split; [reflexivity|]. apply skip_events.
Qed.

(** ** C11 *)
Lemma pass_go p ob c d : ~ p_tstart p == p_tstop p -> set_timestep p ob (t c) (dt c) (-1) = (true, t c, d) ->
  p_scheme p <> Unknown_scheme -> progress_ready c ->
  pass p ob c = Ok {| t := t c + d * p_accfac p; dt := d; count := S (count c); has_dt_array := true |}.
Proof.
  intros Ht Hs Hk Hr. unfold pass. destruct (update_go p ob (-1) c d Hs Hk) as [ev ->]. cbn [bind fst].
  unfold print_progress. cbn [count t dt has_dt_array]. destruct (Qeq_bool_spec (p_tstop p - p_tstart p) 0) as [E|_].
  { exfalso. apply Ht. lra. }
  destruct Hr as [Hc|Hc]; rewrite Hc.
  - reflexivity.
  - destruct (Nat.eqb (S (count c)) 1); reflexivity.
Qed.

Definition zq (n : nat) : Q := inject_Z (Z.of_nat n).
Lemma zq_S n : zq (S n) == zq n + 1.
Proof. unfold zq. rewrite Nat2Z.inj_succ, <- Z.add_1_r, inject_Z_plus. reflexivity. Qed.
Lemma zq_0 : zq 0 == 0.
Proof. reflexivity. Qed.
Lemma zq_nonneg n : 0 <= zq n.
Proof. unfold zq. rewrite <- (Zle_Qle 0). lia. Qed.

Lemma run_constant p env : ~ p_tstart p == p_tstop p -> implicit p -> unlimited p ->
  0 < p_dt p * p_accfac p ->
  forall n k c, progress_ready c ->
  match n with
  | O => p_tstop p < t c
  | S m => t c + zq m * (p_dt p * p_accfac p) <= p_tstop p /\ p_tstop p < t c + zq n * (p_dt p * p_accfac p)
  end ->
  forall fuel, (n <= fuel)%nat -> exists c', run_loop p env k fuel c = Ok (Some c') /\
    count c' = (count c + n)%nat /\ t c' == t c + zq n * (p_dt p * p_accfac p).
Proof.
  intros Ht Hi Hu Hh. set (h := p_dt p * p_accfac p) in *.
  induction n as [|m IH]; intros k c Hr Hn fuel Hf.
  - exists c. destruct fuel; cbn [run_loop]; (destruct (Qle_bool_spec (t c) (p_tstop p)); [lra|]);
      (split; [reflexivity|]; split; [lia|rewrite zq_0; ring]).
  - destruct Hn as [Hn1 Hn2]. destruct fuel as [|fuel]; [lia|]. cbn [run_loop].
    pose proof (zq_nonneg m) as Hz. pose proof (zq_S m) as Hzs.
    destruct (Qle_bool_spec (t c) (p_tstop p)) as [_|Hx]; [|nra].
    rewrite (pass_go p (env k) c (p_dt p)); try assumption.
    2:{ rewrite ts_implicit, limit_unlimited by (assumption || lra). reflexivity. }
    2:{ now apply implicit_known. }
    cbn [bind]. set (c1 := {| t := t c + p_dt p * p_accfac p; dt := p_dt p; count := S (count c); has_dt_array := true |}).
    destruct (IH (S k) c1) with (fuel := fuel) as [c' [H1 [H2 H3]]].
    + now right.
    + destruct m as [|m'].
      * cbn [t c1]. fold h. rewrite zq_S, zq_0 in Hn2. lra.
      * cbn [t c1]. fold h. rewrite (zq_S m') in Hzs. rewrite zq_S in Hn1.
        rewrite (zq_S m'). split; [lra|]. rewrite zq_S in Hn2. rewrite zq_S in Hn2. lra.
    + lia.
    + exists c'. split; [exact H1|]. cbn [count t c1] in H2, H3. fold h in H3. split; [lia|].
      rewrite H3, zq_S. ring.
Qed.

Lemma points_spec tstart tstop h : 0 < h -> tstart <= tstop ->
  exists m, points tstart tstop h = S m /\ tstart + zq m * h <= tstop /\ tstop < tstart + zq (S m) * h.
Proof.
  intros Hh Ht. unfold points. set (q := (tstop - tstart) / h).
  assert (Hq : 0 <= q) by (apply Qle_shift_div_l; lra).
  assert (Hqh : q * h == tstop - tstart) by (unfold q; field; lra).
  assert (Hf : (0 <= Qfloor q)%Z) by (change 0%Z with (Qfloor 0); now apply Qfloor_resp_le).
  exists (Z.to_nat (Qfloor q)). split; [rewrite Z2Nat.inj_add by lia; change (Z.to_nat 1) with 1%nat; lia|].
  rewrite zq_S. unfold zq. rewrite Z2Nat.id by exact Hf.
  pose proof (Qfloor_le q) as H1. pose proof (Qlt_floor q) as H2. rewrite inject_Z_plus in H2.
  change (inject_Z 1) with 1 in H2. nra.
Qed.

Lemma run_steps p env : implicit p -> unlimited p -> 0 < p_dt p * p_accfac p -> p_tstart p < p_tstop p ->
  forall fuel, (points (p_tstart p) (p_tstop p) (p_dt p * p_accfac p) <= fuel)%nat ->
  exists c, run p env fuel = Ok (Some c) /\
    count c = points (p_tstart p) (p_tstop p) (p_dt p * p_accfac p) /\
    t c == p_tstart p + zq (count c) * (p_dt p * p_accfac p) /\
    p_tstop p < t c /\ t c - p_dt p * p_accfac p <= p_tstop p.
Proof.
  intros Hi Hu Hh Ht fuel Hf. destruct (points_spec (p_tstart p) (p_tstop p) _ Hh) as [m [Hm [H1 H2]]]; [lra|].
  rewrite Hm in *. destruct (run_constant p env) with (n := S m) (k := 0%nat) (c := initial_clock p) (fuel := fuel)
    as [c [E [Hc Htc]]]; try assumption.
  - lra.
  - now left.
  - cbn [t initial_clock]. split; assumption.
  - exists c. cbn [count initial_clock Nat.add t] in Hc, Htc. unfold run. rewrite E. cbn [bind].
    unfold print_stats. rewrite Hc. cbn [Nat.eqb bind]. split; [reflexivity|]. split; [reflexivity|].
    split; [exact Htc|]. rewrite zq_S in *. split; lra.
Qed.

(** Progress by at least [h] per update. *)
Lemma run_bounded p env h : 0 < h ->
  (forall k c, progress_ready c -> exists c', pass p (env k) c = Ok c' /\ progress_ready c' /\
     t c + h <= t c' /\ count c' = S (count c)) ->
  forall n k c, progress_ready c -> p_tstop p < t c + zq n * h ->
  forall fuel, (n <= fuel)%nat -> exists c', run_loop p env k fuel c = Ok (Some c') /\
    p_tstop p < t c' /\ (count c' <= count c + n)%nat.
Proof.
  intros Hh Hp. induction n as [|m IH]; intros k c Hr Hn fuel Hf.
  - rewrite zq_0 in Hn. exists c. destruct fuel; cbn [run_loop]; (destruct (Qle_bool_spec (t c) (p_tstop p)); [lra|]);
      (split; [reflexivity|]; split; [assumption || lra|lia]).
  - destruct fuel as [|fuel]; [lia|]. cbn [run_loop]. destruct (Qle_bool_spec (t c) (p_tstop p)) as [Hx|Hx].
    + destruct (Hp k c Hr) as [c1 [E [Hr1 [Ht1 Hc1]]]]. rewrite E. cbn [bind].
      destruct (IH (S k) c1 Hr1) with (fuel := fuel) as [c' [H1 [H2 H3]]].
      * rewrite zq_S in Hn. lra.
      * lia.
      * exists c'. split; [exact H1|]. split; [exact H2|lia].
    + exists c. split; [reflexivity|]. split; [lra|lia].
Qed.

Lemma run_explicit p env M : p_scheme p = Euler_forward -> 0 < p_CFL p -> unlimited p ->
  0 < p_dt p -> 0 < p_accfac p -> p_tstart p < p_tstop p ->
  (forall k ms mn, largest ms (o_cs (env k)) -> largest mn (o_cn (env k)) -> 0 < ms + mn <= M) ->
  forall fuel, (points (p_tstart p) (p_tstop p) (qmin (p_dt p) (p_CFL p / M) * p_accfac p) <= fuel)%nat ->
  exists c, run p env fuel = Ok (Some c) /\ p_tstop p < t c /\
    (count c <= points (p_tstart p) (p_tstop p) (qmin (p_dt p) (p_CFL p / M) * p_accfac p))%nat.
Proof.
  intros Hs Hc Hu Hd Ha Ht HM fuel Hf. set (h := qmin (p_dt p) (p_CFL p / M) * p_accfac p) in *.
  assert (HM' : forall k, 0 < dtref (env k) <= M) by (intros k; apply (HM k); apply amax_largest).
  assert (HM0 : 0 < M) by (destruct (HM' 0%nat); lra).
  assert (Hq : 0 < qmin (p_dt p) (p_CFL p / M)).
  { apply qmin_pos; [exact Hd|]. apply Qlt_shift_div_l; lra. }
  assert (Hh : 0 < h) by (unfold h; nra).
  destruct (points_spec (p_tstart p) (p_tstop p) h Hh) as [m [Hm [H1 H2]]]; [lra|]. rewrite Hm in *.
  destruct (run_bounded p env h Hh) with (n := S m) (k := 0%nat) (c := initial_clock p) (fuel := fuel) as [c [E [H3 H4]]];
    try assumption.
  - intros k c Hr. destruct (HM' k) as [Hk1 Hk2].
    exists {| t := t c + qmin (p_dt p) (p_CFL p / dtref (env k)) * p_accfac p;
              dt := qmin (p_dt p) (p_CFL p / dtref (env k)); count := S (count c); has_dt_array := true |}.
    split; [|split; [now right|split; [|reflexivity]]].
    + apply pass_go; try assumption; [lra| |congruence].
      rewrite ts_explicit, limit_unlimited by (assumption || lra). reflexivity.
    + cbn [t]. unfold h. assert (Hle : p_CFL p / M <= p_CFL p / dtref (env k)).
      { apply Qle_shift_div_r; [exact HM0|]. unfold Qdiv. rewrite <- Qmult_assoc.
        assert (Hi : 1 <= / dtref (env k) * M).
        { setoid_replace (/ dtref (env k) * M) with (M / dtref (env k)) by (field; lra).
          apply Qle_shift_div_l; lra. }
        nra. }
      assert (Hmin : qmin (p_dt p) (p_CFL p / M) <= qmin (p_dt p) (p_CFL p / dtref (env k))).
      { apply qmin_glb; [apply qmin_l|]. pose proof (qmin_r (p_dt p) (p_CFL p / M)). lra. }
      nra.
  - now left.
  - exists c. unfold run. rewrite E. cbn [bind]. cbn [count initial_clock] in H4.
    assert (Hc0 : count c <> 0%nat).
    { intros H0.
      (* the loop ends only beyond tstop, hence after at least one counted update *)
      revert E H0. destruct fuel as [|fuel]; [lia|]. cbn [run_loop initial_clock t].
      destruct (Qle_bool_spec (p_tstart p) (p_tstop p)) as [_|Hx]; [|lra].
      rewrite (pass_go p (env 0%nat) (initial_clock p) (qmin (p_dt p) (p_CFL p / dtref (env 0%nat)))); try congruence.
      - cbn [bind]. intros E H0.
        assert (G : forall fu k c0 c1, progress_ready c0 -> run_loop p env k fu c0 = Ok (Some c1) -> (count c0 <= count c1)%nat).
        { clear - HM' Hs Hc Hu Ht. induction fu as [|fu IH]; intros k c0 c1 Hr; cbn [run_loop];
            destruct (Qle_bool (t c0) (p_tstop p)).
          - discriminate.
          - intros Eq. injection Eq as ->. lia.
          - rewrite (pass_go p (env k) c0 (qmin (p_dt p) (p_CFL p / dtref (env k)))); try assumption; try congruence; [|lra|].
            + cbn [bind]. intros Eq. apply IH in Eq; [cbn [count] in Eq; lia|now right].
            + destruct (HM' k). rewrite ts_explicit, limit_unlimited by (assumption || lra). reflexivity.
          - intros Eq. injection Eq as ->. lia. }
        apply G in E; [|now right]. cbn [count] in E. lia.
      - lra.
      - destruct (HM' 0%nat). rewrite ts_explicit, limit_unlimited by (assumption || lra). reflexivity.
      - now left. }
    unfold print_stats. destruct (Nat.eqb_spec (count c) 0); [contradiction|]. cbn [bind].
    split; [reflexivity|]. split; [exact H3|lia].
Qed.

(** Without wind the explicit scheme does not move the clock. *)
Lemma explicit_calm_stuck p env : p_scheme p = Euler_forward -> 0 < p_CFL p ->
  ~ p_tstart p == p_tstop p -> (forall k, dtref (env k) <= 0) ->
  forall fuel k c, has_dt_array c = true -> t c <= p_tstop p -> run_loop p env k fuel c = Ok None.
Proof.
  intros Hs Hc Ht Hd. induction fuel as [|f IH]; intros k c Hh Hle; cbn [run_loop];
    (destruct (Qle_bool_spec (t c) (p_tstop p)) as [_|Hx]; [|lra]); [reflexivity|].
  unfold pass, update. rewrite ts_explicit_calm by (assumption || lra || apply Hd). cbn [negb bind fst].
  unfold print_progress. cbn [count t dt has_dt_array].
  destruct (Qeq_bool_spec (p_tstop p - p_tstart p) 0) as [E|_]; [exfalso; apply Ht; lra|].
  rewrite Hh. destruct (Nat.eqb (count c) 1); cbn [bind]; apply IH; assumption || reflexivity.
Qed.
Lemma explicit_calm_start p env : p_scheme p = Euler_forward -> 0 < p_CFL p ->
  p_tstart p < p_tstop p -> dtref (env 0%nat) <= 0 ->
  forall fuel, run p env (S fuel) = Raise AttributeError.
Proof.
  intros Hs Hc Ht Hd fuel. unfold run. cbn [run_loop initial_clock t].
  destruct (Qle_bool_spec (p_tstart p) (p_tstop p)) as [_|Hx]; [|lra].
  unfold pass, update. cbn [t dt]. rewrite ts_explicit_calm by (assumption || lra). cbn [negb bind fst].
  unfold print_progress. cbn [count t dt has_dt_array].
  destruct (Qeq_bool_spec (p_tstop p - p_tstart p) 0) as [E|_]; [lra|]. reflexivity.
Qed.

(** Calm weather with a left-over bed level change above the maximum: the time step shrinks
    geometrically and the clock never passes a fixed time. *)
Lemma calm_stall p env m : implicit p -> limited p -> ~ p_tstart p == p_tstop p -> 0 < p_accfac p -> 0 < p_dt p ->
  p_max_bedlevel_change p < m -> (forall k, largest m (o_dzb (env k))) ->
  forall fuel k c, progress_ready c -> 0 < dt c ->
  t c + p_accfac p * dt c * p_max_bedlevel_change p / (m - p_max_bedlevel_change p) <= p_tstop p ->
  run_loop p env k fuel c = Ok None.
Proof.
  intros Hi [Hl Hb0] Ht Ha Hdt Hm He. set (b := p_max_bedlevel_change p) in *.
  induction fuel as [|f IH]; intros k c Hr Hd Hle; cbn [run_loop].
  - destruct (Qle_bool_spec (t c) (p_tstop p)) as [_|Hx]; [reflexivity|].
    assert (0 <= p_accfac p * dt c * b / (m - b)) by (apply Qle_shift_div_l; [lra|]; pose proof (Qmult_lt_0_compat _ _ (Qmult_lt_0_compat _ _ Ha Hd) Hb0); lra). lra.
  - assert (H0 : 0 <= p_accfac p * dt c * b / (m - b)) by (apply Qle_shift_div_l; [lra|]; pose proof (Qmult_lt_0_compat _ _ (Qmult_lt_0_compat _ _ Ha Hd) Hb0); lra).
    destruct (Qle_bool_spec (t c) (p_tstop p)) as [_|Hx]; [|lra].
    assert (Hmx : amax (o_dzb (env k)) == m) by (apply largest_amax, He).
    assert (Hts : exists d, set_timestep p (env k) (t c) (dt c) (-1) = (true, t c, d) /\
                            (d == p_dt p /\ p_dt p <= dt c * b / m \/ d == dt c * b / m)).
    { rewrite ts_implicit by (assumption || lra). eexists. split; [reflexivity|].
      change (Qltb 0 (-1)) with false. cbv iota. unfold limit_bedlevel. fold b.
      destruct (Qeq_bool_spec b 999) as [E|_]; [contradiction|].
      destruct (Qeq_bool_spec (amax (o_dzb (env k))) 0) as [E|_]; [lra|].
      destruct (Qeq_bool_spec (dt c) 0) as [E|_]; [lra|]. cbn [negb andb].
      destruct (qmin_cases (p_dt p) (dt c * b / amax (o_dzb (env k)))) as [[-> Hx]|[-> Hx]].
      - left. rewrite Hmx in Hx. split; [reflexivity|exact Hx].
      - right. now rewrite Hmx. }
    destruct Hts as [d [Hts Hdd]].
    rewrite (pass_go p (env k) c d) by (assumption || now apply implicit_known). cbn [bind].
    assert (Hq : dt c * b / m * m == dt c * b) by (field; lra).
    assert (Hg : p_accfac p * dt c * b / (m - b) * (m - b) == p_accfac p * dt c * b) by (field; lra).
    set (q := dt c * b / m) in *. set (g := p_accfac p * dt c * b / (m - b)) in *.
    assert (Hdq : d <= q) by (destruct Hdd as [[-> ?]| ->]; lra).
    assert (Hdpos : 0 < d).
    { assert (0 < q) by (unfold q; apply Qlt_shift_div_l; [lra|nra]). destruct Hdd as [[-> ?]| ->]; assumption. }
    apply IH; cbn [t dt]; [now right|exact Hdpos|].
    apply Qle_trans with (t c + d * p_accfac p + p_accfac p * q * b / (m - b)).
    + apply Qplus_le_r. unfold Qdiv. apply Qmult_le_compat_r; [apply Qmult_le_compat_r; [nra|lra]|]. apply Qlt_le_weak, Qinv_lt_0_compat. lra.
    + setoid_replace (p_accfac p * q * b / (m - b)) with (g - p_accfac p * q); [nra|].
      unfold g, q. field. split; lra.
Qed.

(** ** C12 *)
Lemma limited_step p ob now prev req : limited p -> implicit p -> -1 <= req -> 0 < p_dt p -> 0 < prev ->
  (exists x, cell x (o_dzb ob) /\ 0 < x) ->
  exists d, set_timestep p ob now prev req = (true, now, d) /\ 0 < d /\
    d <= (if Qltb 0 req then req else p_dt p) /\
    forall x, cell x (o_dzb ob) -> x * (d / prev) <= p_max_bedlevel_change p.
Proof.
  intros [Hl Hb] Hi Hr Hdt Hp [x0 [Hx0 Hx0p]]. rewrite ts_implicit by assumption. eexists. split; [reflexivity|].
  assert (Hd0 : 0 < (if Qltb 0 req then req else p_dt p)) by (destruct (Qltb_spec 0 req); lra).
  set (d0 := if Qltb 0 req then req else p_dt p) in *. set (b := p_max_bedlevel_change p) in *.
  destruct (amax_largest (o_dzb ob)) as [_ Hmax]. set (m := amax (o_dzb ob)) in *.
  assert (Hm : 0 < m) by (specialize (Hmax x0 Hx0); lra).
  unfold limit_bedlevel. fold m b. destruct (Qeq_bool_spec b 999) as [E|_]; [contradiction|].
  destruct (Qeq_bool_spec m 0) as [E|_]; [lra|]. destruct (Qeq_bool_spec prev 0) as [E|_]; [lra|]. cbn [negb andb].
  assert (Hq : 0 < prev * b / m) by (apply Qlt_shift_div_l; nra).
  split; [now apply qmin_pos|]. split; [apply qmin_l|]. intros x Hx. specialize (Hmax x Hx).
  pose proof (qmin_r d0 (prev * b / m)) as Hr2. pose proof (qmin_pos _ _ Hd0 Hq) as Hpos.
  set (d := qmin d0 (prev * b / m)) in *.
  assert (Hq' : prev * b / m * m == prev * b) by (field; lra).
  assert (Hdm : d * m <= prev * b) by nra.
  assert (E : x * (d / prev) == x * d / prev) by (field; lra). rewrite E.
  apply Qle_shift_div_r; [exact Hp|]. nra.
Qed.
Lemma unlimited_or_first p ob now prev req : implicit p -> -1 <= req -> prev == 0 \/ unlimited p ->
  set_timestep p ob now prev req = (true, now, if Qltb 0 req then req else p_dt p).
Proof.
  intros Hi Hr Hp. rewrite ts_implicit by assumption. f_equal. destruct Hp as [Hp|Hp]; [|now apply limit_unlimited].
  unfold limit_bedlevel. destruct (Qeq_bool_spec prev 0) as [_|E]; [|contradiction]. now rewrite andb_false_r.
Qed.

(** An unknown scheme is noticed in the first step with wind. *)
Lemma unknown_scheme p ob req c : p_scheme p = Unknown_scheme -> -1 <= req ->
  (o_calm ob = false -> update p ob req c = Raise ValueError) /\
  (o_calm ob = true -> exists c' ev, update p ob req c = Ok (c', ev) /\ count c' = S (count c)).
Proof.
  intros Hs Hr. unfold update, set_timestep. destruct (Qltb_spec req (-1)) as [Hl|_]; [lra|]. rewrite andb_false_r, Hs. cbn [negb].
  split; intros ->; [reflexivity|]. eexists _, _. split; reflexivity.
Qed.
(** A run that ends before it starts fails on its statistics. *)
Lemma no_step p env fuel : p_tstop p < p_tstart p -> run p env fuel = Raise ZeroDivisionError.
Proof.
  intros H. unfold run. destruct fuel as [|f]; cbn [run_loop initial_clock t];
  (destruct (Qle_bool (p_tstart p) (p_tstop p)) eqn:E; [apply Qle_bool_iff in E; lra|]); reflexivity.
Qed.
