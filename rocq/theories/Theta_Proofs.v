(** Proofs about steps that average both ends of the step. *)
From Coq Require Import QArith Lia Lqa List Bool Arith Setoid.
From Verif Require Import Base Num Utils_Model Utils_Spec Utils_Proofs Bed_Model Solver_Model Solver_Spec Linear Solver_Proofs Solver_Iter Solver_Balance Solver_Cases Causal_Proofs Run_Model Run_Spec Run_Proofs Theta_Spec.
Import ListNotations.
Open Scope Q_scope.

Section Step.
Variables (k : cfg) (f : flow) (d : input).
Hypothesis Hs : sensible k.
Hypothesis Hrect : rectangular k f.
Hypothesis Hlat : lateral_uniform k f.
Hypothesis Hl : lateral k = Circular.
Hypothesis Hwind : onshore_wind k f.
Hypothesis Hside : no_side_wind_in_1d k f.
Hypothesis Htrunk : trunk k = true.

(** Lateral inflow without the rows beside it. *)
Lemma lateral_parts r c : (r <= ny k)%nat -> (c <= nx k)%nat ->
  qmax (un f r c) 0 == un f 0%nat c * upw (un f 0%nat c) /\ qmin (un f r c) 0 == un f 0%nat c * (1 - upw (un f 0%nat c)) /\
  qabs (un f 0%nat c) == un f 0%nat c * upw (un f 0%nat c) - un f 0%nat c * (1 - upw (un f 0%nat c)).
Proof.
  intros Hr Hc. pose proof (Hlat r c Hr Hc) as V. assert (Ea : qabs (un f 0%nat c) == qabs (un f r c)) by (rewrite <- !sgn_abs; unfold sgn; rewrite (upw_compat _ _ V), V; reflexivity).
  rewrite Ea, <- (upw_compat _ _ V), <- V. unfold qmax, qmin, qabs, upw. destruct (Qle_bool_spec (un f r c) 0), (Qle_bool_spec 0 (un f r c)); repeat split; lra.
Qed.
Lemma row_algebra (al dt h hs on Tq u0 u1 V1 V2 X0 X1 P N : Q) : 0 < h -> 0 < hs ->
  hs * h * (- (al * (dt / hs) * u0) * X0 + (on + al * (dt / hs * u1 + dt / h * (V1 - V2) + Tq)) * X1 + (- (al * (dt / h)) * V1 * P + al * (dt / h) * V2 * N)) ==
  hs * h * (on * X1) + al * (hs * h * Tq * X1 - (dt * h * (u0 * X0 - u1 * X1) + dt * hs * (V1 * (P - X1) + V2 * (X1 - N)))).
Proof. intros. field. split; lra. Qed.
Lemma matrix_row x r c : inside k r c ->
  area f r c * mulv (cells k) (matrix k f) x (r * width k + c) == area f r c * at_cell k x r c + alpha k * (area f r c * (dt k / T k) * at_cell k x r c - inflow k f x r c).
Proof.
  intros (Hr & H1 & H2). destruct c as [|c]; [lia|]. rewrite (upwind_row k (S c) Hs Hl H2 f x r c Hrect Hlat Hr (Nat.le_refl _) (Hwind r (S c) Hr ltac:(lia))).
  assert (Hts : tstep k = dt k) by (unfold tstep; rewrite Htrunk; reflexivity). assert (Hi : implicitness k = alpha k) by (unfold implicitness; rewrite Htrunk; reflexivity).
  unfold one, Ti. rewrite Hts, Hi, Htrunk. destruct (lateral_parts r (S c) Hr ltac:(lia)) as (P1 & P2 & P3). destruct (Hrect r (S c) Hr ltac:(lia)) as (D1 & D2 & D3 & D4).
  unfold area, inflow. rewrite P1, P2, D2, D4. replace (S c - 1)%nat with c by lia. change (row_up k r) with (prev_row k r). change (row_down k r) with (next_row k r).
  rewrite D4 in D3. rewrite D2 in D1. rewrite P3.
  assert (Hz : ny k = 0%nat -> un f 0%nat (S c) == 0) by (intros Hz; apply Hside; [exact Hz | lia]).
  assert (V0 : forall a b q, (if Nat.eqb (ny k) 0 then 0 else - q * (un f 0%nat (S c) * upw (un f 0%nat (S c))) * a + q * (un f 0%nat (S c) * (1 - upw (un f 0%nat (S c)))) * b) ==
    - q * (un f 0%nat (S c) * upw (un f 0%nat (S c))) * a + q * (un f 0%nat (S c) * (1 - upw (un f 0%nat (S c)))) * b).
  { intros a b q. destruct (Nat.eqb_spec (ny k) 0) as [E|]; [|reflexivity]. specialize (Hz E). assert (Q1 : un f 0%nat (S c) * upw (un f 0%nat (S c)) == 0) by (rewrite Hz at 1; ring).
    assert (Q2 : un f 0%nat (S c) * (1 - upw (un f 0%nat (S c))) == 0) by (rewrite Hz at 1; ring). rewrite Q1, Q2. ring. }
  rewrite V0. rewrite row_algebra by assumption. ring.
Qed.

Lemma explicit_algebra (dt h hs S Tq u0 u1 V1 V2 X0 X1 P N : Q) : 0 < h -> 0 < hs ->
  hs * h * (S - (dt / hs * u1 + dt / h * (V1 - V2) + Tq) * X1 + dt / hs * u0 * X0 + dt / h * V1 * P - dt / h * V2 * N) ==
  hs * h * (S - Tq * X1) + (dt * h * (u0 * X0 - u1 * X1) + dt * hs * (V1 * (P - X1) + V2 * (X1 - N))).
Proof. intros. field. split; lra. Qed.
(** Cells beside a cell in the flattened grid. *)
Lemma before_at r c : (r <= ny k)%nat -> (c <= nx k)%nat -> row_before k (r * width k + c) = (prev_row k r * width k + c)%nat.
Proof. intros Hr Hc. unfold row_before, prev_row, width. destruct r as [|r]. destruct (Nat.ltb_spec (0 * S (nx k) + c) (S (nx k))); lia. destruct (Nat.ltb_spec (S r * S (nx k) + c) (S (nx k))); lia. Qed.
Lemma after_at r c : (r <= ny k)%nat -> (c <= nx k)%nat -> row_after k (r * width k + c) = (next_row k r * width k + c)%nat.
Proof. intros Hr Hc. unfold row_after, next_row, width. destruct (Nat.ltb_spec (r * S (nx k) + c) (S (nx k) * ny k)), (Nat.eqb_spec r (ny k)); nia. Qed.
Lemma explicit_part r c : inside k r c -> let i := (r * width k + c)%nat in
  area f r c * explicit k f d i == area f r c * ((lw d i * ((1 - sat d i) * lCuf d i + sat d i * lCu d i) - lCt d i) * dt k / T k) + inflow k f (lCt d) r c.
Proof.
  intros (Hr & H1 & H2) i. unfold explicit. assert (E1 : (i / width k = r)%nat). { unfold i, width. rewrite Nat.div_add_l, Nat.div_small, Nat.add_0_r by lia. reflexivity. }
  assert (E2 : (i mod width k = c)%nat). { unfold i, width. rewrite Nat.add_comm, Nat.mod_add, Nat.mod_small by lia. reflexivity. }
  rewrite E1, E2. cbv zeta. rewrite !cs_eq, !cn_eq by (assumption || lia). rewrite (un_plus_eq k f Hlat r c Hr ltac:(lia)), (un_min_eq k f Hlat r c Hr ltac:(lia)).
  replace (row_before k i) with (prev_row k r * width k + c)%nat by (symmetry; apply before_at; lia). replace (row_after k i) with (next_row k r * width k + c)%nat by (symmetry; apply after_at; lia). assert (Hts : tstep k = dt k) by (unfold tstep; rewrite Htrunk; reflexivity). unfold source, Ti. rewrite Hts.
  destruct (lateral_parts r c Hr ltac:(lia)) as (P1 & P2 & P3). destruct (Hrect r c Hr ltac:(lia)) as (D1 & D2 & D3 & D4).
  assert (U1 : upw (us f r c) = 1) by (unfold upw; specialize (Hwind r c Hr ltac:(lia)); destruct (Qle_bool_spec 0 (us f r c)); [reflexivity | lra]).
  assert (Us : sgn (us f r c) == 1) by (unfold sgn; rewrite U1; ring). pose proof (sgn_abs (un f r c)) as Sn.
  assert (Ea : qabs (un f r c) == un f 0%nat c * upw (un f 0%nat c) - un f 0%nat c * (1 - upw (un f 0%nat c))).
  { rewrite <- P3. rewrite <- !sgn_abs. unfold sgn. rewrite (upw_compat _ _ (Hlat r c Hr ltac:(lia))), (Hlat r c Hr ltac:(lia)). reflexivity. }
  rewrite Ea in Sn. pose proof (Hlat r c Hr ltac:(lia)) as V. pose proof (upw_compat _ _ V) as Vu.
  unfold area, inflow, at_cell. change (row_up k r) with (prev_row k r). change (row_down k r) with (next_row k r). fold (width k). fold i. rewrite P1, P2. rewrite D2, D4. rewrite D4 in D3. rewrite D2 in D1.
  destruct c as [|c]; [lia|]. cbn [us_plus]. replace (S c - 1)%nat with c by lia. replace (i - 1)%nat with (r * width k + c)%nat by (unfold i; lia).
  rewrite Vu, U1, Us. set (V1 := un f 0%nat (S c) * upw (un f 0%nat (S c))) in *. set (V2 := un f 0%nat (S c) * (1 - upw (un f 0%nat (S c)))) in *.
  set (hs := ds f 0%nat (S c)) in *. set (h := dn f 0%nat 0%nat) in *. set (X0 := lCt d (r * width k + c)%nat). set (P := lCt d (prev_row k r * width k + S c)%nat). set (N := lCt d (next_row k r * width k + S c)%nat).
  set (S0 := lw d i * lCuf d i * (dt k / T k) * (1 - sat d i) + lw d i * lCu d i * (dt k / T k) * sat d i).
  assert (T0 : 0 < T k) by (apply Hs).
  transitivity (hs * h * (S0 - (dt k / hs * us f r (S c) + dt k / h * (V1 - V2) + dt k / T k) * lCt d i + dt k / hs * us f r c * X0 + dt k / h * V1 * P - dt k / h * V2 * N)).
  - assert (A1 : sgn (un f r (S c)) * (dt k / h * un f r (S c)) == dt k / h * (V1 - V2)) by (rewrite <- Sn; ring). rewrite A1. unfold V1, V2. rewrite V. ring.
  - rewrite explicit_algebra by assumption. unfold S0. field. lra.
Qed.

(** What a solution says about a cell. *)
Lemma averaged_row w x : solves (cells k) (matrix k f) (rhs k f d w) x -> forall r c, inside k r c -> let i := (r * width k + c)%nat in
  area f r c * (x i - lCt d i) == alpha k * (inflow k f x r c + area f r c * ((w i * ((1 - sat d i) * Cuf d i + sat d i * Cu d i) - x i) * dt k / T k))
  + (1 - alpha k) * (inflow k f (lCt d) r c + area f r c * ((lw d i * ((1 - sat d i) * lCuf d i + sat d i * lCu d i) - lCt d i) * dt k / T k)).
Proof.
  intros Hx r c Hin i. pose proof (matrix_row x r c Hin) as M. pose proof (explicit_part r c Hin) as E. cbv zeta in E. fold i in M, E. destruct Hin as (Hr & H1 & H2).
  rewrite (Hx i (rc_lt k r c Hr ltac:(lia))) in M. unfold i in M at 1. rewrite rhs_rc in M by lia. cbv zeta in M. destruct (Nat.eqb_spec c (nx k)); [lia|]. destruct (Nat.eqb_spec c 0); [lia|]. rewrite Htrunk in M. fold i in M.
  change (at_cell k x r c) with (x i) in M. assert (Hts : tstep k = dt k) by (unfold tstep; rewrite Htrunk; reflexivity).
  assert (Es : source k (w i) (Cu d i) (Cuf d i) (sat d i) == (w i * ((1 - sat d i) * Cuf d i + sat d i * Cu d i)) * (dt k / T k)) by (unfold source, Ti; rewrite Hts; ring).
  rewrite Es in M. assert (T0 : 0 < T k) by (apply Hs).
  setoid_replace ((w i * ((1 - sat d i) * Cuf d i + sat d i * Cu d i) - x i) * dt k / T k) with (w i * ((1 - sat d i) * Cuf d i + sat d i * Cu d i) * (dt k / T k) - x i * (dt k / T k)) by (field; lra).
  rewrite (Qplus_comm (inflow k f (lCt d) r c)). rewrite <- E. set (A := area f r c) in *. set (I := inflow k f x r c) in *. set (ex := explicit k f d i) in *. set (q := w i * ((1 - sat d i) * Cuf d i + sat d i * Cu d i) * (dt k / T k)) in *.
  set (a := alpha k) in *. set (t := dt k / T k) in *. clearbody A I ex q a t. lra.
Qed.
End Step.

(** Where there is sand after the removal of negative values there was some before. *)
Lemma tidy_positive k x z i : tidy k x = Some z -> (i < cells k)%nat -> 0 < z i -> 0 <= x i.
Proof.
  intros H Hi P. destruct (Qlt_le_dec (x i) 0) as [L|]; [exfalso | assumption]. revert H. unfold tidy. fold (untinied k x). unfold remove_negatives.
  assert (Eu : untinied k x i = x i \/ untinied k x i = 0).
  { unfold untinied. rewrite memo_get by exact Hi. unfold no_tiny_negative. destruct (Qltb (x i) 0 && Qltb (- max_error k) (x i)); auto. }
  destruct (anyn (cells k) (negative (untinied k x))) eqn:En.
  - destruct (Qeq_bool _ 0).
    + destruct (trunk k || _); [|discriminate]. intros E. injection E as E. rewrite <- E in P. lra.
    + intros E. injection E as E. rewrite <- E in P. rewrite memo_get in P by exact Hi. unfold negative in P. destruct Eu as [Eu | Eu]; rewrite Eu in P.
      * destruct (Qltb_spec (x i) 0); lra.
      * change (Qltb 0 0) with false in P. cbv iota in P. lra.
  - intros E. injection E as E. rewrite <- E in P. pose proof (anyn_false _ _ En i Hi) as F. unfold negative in F. destruct Eu as [Eu | Eu]; rewrite Eu in F, P; [|lra]. destruct (Qltb_spec (x i) 0); [discriminate | lra].
Qed.
Lemma open_quiet k f : sensible k -> open_ends k -> onshore_wind k f -> quiet_ends k f.
Proof.
  intros Hs ([A | A] & [B | [B | B]] & C) Hw; try (left; unfold prescribed_ends; rewrite A, B, C; tauto); right; unfold prescribed_offshore; rewrite A, B, C;
  (split; [tauto|]; split; [reflexivity|]; intros r Hr; apply Hw; [exact Hr | lia]).
Qed.
Lemma outcome_solves sp k f d w o : sensible k -> rectangular k f -> lateral_uniform k f -> open_ends k -> onshore_wind k f -> nonnegative_ends k f -> exact_solver (number_of_cells k) (matrix k f) sp ->
  (forall i, (i < number_of_cells k)%nat -> 0 <= Cu0 d i) -> solve_fraction sp k f d w = Ok (Some o) -> converged o = true -> airborne k o ->
  solves (cells k) (matrix k f) (rhs k f d (weight o)) (ct o).
Proof.
  intros Hs Hrect Hlat Hends Hwind Hnn Hsp Hcu Ho Hc Hair. pose proof Hs as (_ & Hnx & _).
  destruct (quiet_good k f Hs Hrect Hlat (onshore_gathers k f Hs Hwind) (open_quiet k f Hs Hends Hwind)) as (Hsolv & _).
  apply solve_fraction_inv in Ho. symmetry in Ho. destruct (iterate_weights_same sp k f d _ _ _ Ho Hc) as (w' & Ht & <-).
  set (y := rhs k f d (weight o)) in *. set (x := sp (matrix k f) y) in *. assert (Hx : solves (cells k) (matrix k f) y x). { rewrite cells_eq. apply Hsp. rewrite <- cells_eq. apply Hsolv. }
  assert (Ez : forall i, (i < cells k)%nat -> ct o i = x i).
  { destruct Hends as (Hoff & Hon & Hcirc).
    assert (Hp : prescribed_offshore k) by (split; [exact Hoff | split; [tauto | exact Hcirc]]).
    assert (Lin : forall r c, inside k r c -> 0 < ct o (r * width k + c)%nat) by (intros r c H; apply Hair, H).
    pose proof Hnn as (N1 & N2 & N3 & N4 & N5).
    assert (Lx : forall r c, inside k r c -> 0 <= x (r * width k + c)%nat).
    { intros r c Hin. pose proof Hin as (Hr & H1 & H2). apply (tidy_positive k x (ct o) _ Ht (rc_lt k r c Hr ltac:(lia))). apply Lin, Hin. }
    assert (N : forall i, (i < cells k)%nat -> 0 <= x i); [|destruct (tidy_nonneg_same k x N) as (z' & E & S); rewrite E in Ht; injection Ht as <-; exact S].
    intros i Hi. destruct (rc_of k i Hi) as (r & c & Hr & Hcc & ->).
    destruct (Nat.eq_dec c 0) as [-> |].
    - pose proof (first_row k 0 Hs ltac:(tauto) ltac:(lia) f x r Hr) as E. change (at_cell k x r 0) with (x (r * width k + 0)%nat) in E. rewrite <- E, (Hx _ Hi). unfold y. rewrite rhs_rc by lia. cbv zeta.
      destruct (Nat.eqb_spec 0 (nx k)); [lia|]. change (Nat.eqb 0 0) with true. cbv iota. apply prescribed_nn; try assumption; [apply Hcu; rewrite <- cells_eq; exact Hi | apply N5; lia].
    - destruct (Nat.eq_dec c (nx k)) as [-> |]; [|apply Lx; repeat split; lia].
      pose proof (last_row k f Hs Hp x r Hr) as E. rewrite (Hx _ Hi) in E. unfold y in E. rewrite rhs_rc in E by lia. cbv zeta in E. rewrite Nat.eqb_refl in E.
      assert (F : fixed_row k r = false) by (apply fixed_row_false; exact Hp).
      assert (P0 : 0 <= prescribed (onshore k) (onshore_flux k) (constant_onshore_flux k) (Cu0 d (r * width k + nx k)%nat) (uu f r (nx k))).
      { apply prescribed_nn; try assumption; [apply Hcu; rewrite <- cells_eq; exact Hi | apply N5; lia]. }
      assert (Ho' : onshore_fixed k = beq (onshore k) Flux) by (unfold onshore_fixed; destruct Hoff as [-> | ->]; cbn [beq]; rewrite andb_false_r, orb_false_r; reflexivity).
      unfold Am2, Am1 in E. rewrite F, Nat.eqb_refl, Ho' in E. cbn [orb] in E. destruct (Nat.eqb_spec (nx k) 0); [lia|]. 
      change (at_cell k x r (nx k)) with (x (r * width k + nx k)%nat) in E.
      pose proof (Lx r (nx k - 1)%nat ltac:(repeat split; lia)) as Lp. change (x (r * width k + (nx k - 1))%nat) with (at_cell k x r (nx k - 1)) in Lp.
      destruct Hon as [A | [A | A]]; rewrite A in E, P0; cbn [beq] in E; lra. }
  intros i Hi. rewrite <- (Hx i Hi). apply sumn_ext. intros j Hj. rewrite (Ez j Hj). reflexivity.
Qed.

(** * Two steps of a run *)
Lemma calm_steps sp k e rest : forall n s r, run sp k e false s (repeat None n ++ rest) = Ok (Some r) -> exists t, run sp k e false s rest = Ok (Some (fst r, t)) /\ snd r = repeat [] n ++ t.
Proof.
  induction n as [|n IH]; intros s [s' t] H; cbn [repeat app] in *. exists t. split; [exact H | reflexivity].
  cbn [run] in H. destruct (run sp k e false s (repeat None n ++ rest)) as [[[s2 t2]|]|] eqn:E; cbn [bind] in H; try discriminate. injection H as <- <-.
  destruct (IH s _ E) as (u & H1 & H2). exists u. split; [exact H1|]. cbn [fst snd] in *. rewrite H2. reflexivity.
Qed.
Lemma one_step sp k e t0 s ws s' os : run sp k e t0 s [Some ws] = Ok (Some (s', [os])) -> step sp k e t0 s ws = Ok (Some (s', os)).
Proof.
  cbn [run]. destruct (step sp k e t0 s ws) as [[[s1 o]|]|]; cbn [bind]; try discriminate. intros H. injection H as <- <-. reflexivity.
Qed.
Lemma two_steps_inv sp k e t0 s s1 s2 ws1 ws2 n os1 os2 : two_steps sp k e t0 s s1 s2 ws1 ws2 n os1 os2 -> step sp k e t0 s ws1 = Ok (Some (s1, os1)) /\ step sp k e false s1 ws2 = Ok (Some (s2, os2)).
Proof.
  intros (H1 & H2). apply one_step in H1. split; [exact H1|]. cbn [run] in H2. rewrite H1 in H2. cbn [bind] in H2.
  destruct (run sp k e false s1 (repeat None n ++ [Some ws2])) as [[[s3 t]|]|] eqn:E; cbn [bind] in H2; try discriminate. injection H2 as <- E3.
  destruct (calm_steps sp k e _ n s1 _ E) as (u & R & Eu). cbn [fst snd] in R, Eu. rewrite Eu in E3. apply app_inv_head in E3. subst u. apply one_step, R.
Qed.
Lemma step_fraction sp k e t0 s ws s' os : step sp k e t0 s ws = Ok (Some (s', os)) -> length os = length ws /\ air s' = map ct os /\ oldCu s' = map wCu ws /\ oldCuf s' = map wCuf ws /\
  forall i w o, nth_error ws i = Some w -> nth_error os i = Some o -> exists w0, solve_fraction sp k (speed w) (snd (reads s ws i w)) w0 = Ok (Some o).
Proof.
  unfold step. intros H. destruct (solve sp k t0 _ _ _ _) as [[[os1 w]|]|] eqn:E; cbn [bind] in H; try discriminate. injection H as <- <-. unfold solve in E.
  destruct (start_weights _ _ _ _ _) as [sw|]; cbn [bind] in E; try discriminate. apply fractions_each in E. split; [rewrite (Forall2_len _ _ _ E); apply reads_length|]. repeat (split; [reflexivity|]).
  intros i w1 o Hw Ho. assert (Hr : nth_error (all_reads s ws) i = Some (reads s ws i w1)) by (apply reads_nth; eauto). apply (Forall2_nth _ _ _ E i o _ Ho Hr).
Qed.
Lemma nth_map_error {A B} (g : A -> B) l i x dflt : nth_error l i = Some x -> nth i (map g l) dflt = g x.
Proof. intros H. apply nth_error_nth. rewrite nth_error_map, H. reflexivity. Qed.
Lemma fullness_air os ws j : qsum (map2 (fun a w => if Qltb 0 (wCu w j) then a j / wCu w j else 0) (map ct os) ws) = fullness os ws j.
Proof. unfold fullness. f_equal. revert ws. induction os as [|o os IH]; intros [|w ws]; cbn [map map2]; try reflexivity. f_equal. apply IH. Qed.
Lemma two_averaged sp k e t0 s s1 s2 ws1 ws2 n os1 os2 : sensible k -> trunk k = true -> open_ends k -> two_steps sp k e t0 s s1 s2 ws1 ws2 n os1 os2 ->
  forall i w1 w2 o1 o2, nth_error ws1 i = Some w1 -> nth_error ws2 i = Some w2 -> nth_error os1 i = Some o1 -> nth_error os2 i = Some o2 ->
  steady_wind sp k w2 -> converged o2 = true -> airborne k o2 ->
  forall r c, inside k r c -> averaged k (speed w2) w1 w2 (fullness os1 ws2) (fun j => nth i (oldw s1 j) 0) (weight o2) o1 o2 r c.
Proof.
  intros Hs Ht Hends H i w1 w2 o1 o2 W1 W2 O1 O2 (G1 & G2 & G3 & G4 & G5 & G6 & G7) Hc Hair r c Hin. apply two_steps_inv in H. destruct H as (S1 & S2).
  destruct (step_fraction _ _ _ _ _ _ _ _ S1) as (_ & A1 & A2 & A3 & _). destruct (step_fraction _ _ _ _ _ _ _ _ S2) as (_ & _ & _ & _ & F). destruct (F i w2 o2 W2 O2) as (w0 & F2).
  pose proof (outcome_solves sp k (speed w2) (snd (reads s1 ws2 i w2)) w0 o2 Hs G1 G2 Hends G3 G5 G6 ltac:(intros j Hj; apply (G7 j Hj)) F2 Hc Hair) as Hx.
  pose proof (averaged_row k (speed w2) (snd (reads s1 ws2 i w2)) Hs G1 G2 ltac:(apply Hends) G3 G4 Ht (weight o2) (ct o2) Hx r c Hin) as R. cbv zeta in R.
  unfold averaged, gain, relaxation, potential. cbv zeta. cbn [snd reads lCt lCu lCuf lw sat Cu Cuf] in R. rewrite A1, A2, A3 in R. rewrite !(nth_map_error _ _ _ _ _ O1), !(nth_map_error _ _ _ _ _ W1) in R.
  unfold saturation in R. rewrite A1, fullness_air in R. change (width k) with (S (nx k)) in R. exact R.
Qed.
(** The weights of the last fraction are not renormalised any more. *)
Lemma set_nth_same i x : forall l, (i < length l)%nat -> nth i (set_nth i x l) 0 = x.
Proof. induction i; intros [|y l] H; cbn in *; try lia. reflexivity. apply IHi. lia. Qed.
Lemma last_stored sp k nf : forall fs i w os w', (1 <= length fs)%nat -> (i + length fs = nf)%nat -> (forall j, (j < number_of_cells k)%nat -> length (w j) = nf) -> fractions sp k i fs w = Ok (Some (os, w')) ->
  forall o, nth_error os (length fs - 1) = Some o -> forall j, (j < number_of_cells k)%nat -> nth (nf - 1) (w' j) 0 = weight o j.
Proof.
  induction fs as [|[f d] fs IH]; intros i w os w' Hn Hl Hw H o Ho j Hj; cbn [length] in *; [lia|]. cbn [fractions] in H.
  destruct (solve_fraction sp k f d _) as [[o1|]|] eqn:E; cbn [bind] in H; try discriminate. destruct (fractions sp k (S i) fs _) as [[[os1 w1]|]|] eqn:E1; cbn [bind] in H; try discriminate. injection H as <- <-.
  destruct fs as [|fd fs].
  - cbn [length fractions Nat.sub nth_error] in *. injection Ho as <-. injection E1 as <- <-. replace (nf - 1)%nat with i by lia. apply set_nth_same. rewrite renorm_length, (Hw j Hj). lia.
  - cbn [length] in *. replace (S (S (length fs)) - 1)%nat with (S (length fs)) in Ho by lia. cbn [nth_error] in Ho. refine (IH (S i) _ os1 w1 ltac:(lia) ltac:(lia) _ E1 o _ j Hj).
    + intros j' Hj'. rewrite set_nth_length, renorm_length. apply Hw, Hj'.
    + replace (S (length fs) - 1)%nat with (length fs) by lia. exact Ho.
Qed.
Lemma stored_weight sp nf k e t0 s s1 ws os : trunk k = true -> length (grains e) = nf -> length ws = nf -> (1 <= nf)%nat -> sound_state nf k s -> run sp k e t0 s [Some ws] = Ok (Some (s1, [os])) ->
  forall o, nth_error os (nf - 1) = Some o -> forall j, (j < number_of_cells k)%nat -> nth (nf - 1) (oldw s1 j) 0 = weight o j.
Proof.
  intros Ht Hg Hl Hn Hs H o Ho j Hj. apply one_step in H. unfold step in H. destruct (solve sp k t0 _ _ _ _) as [[[os1 w]|]|] eqn:E; cbn [bind] in H; try discriminate. injection H as <- <-. unfold solve in E.
  destruct (start_weights _ _ _ _ _) as [sw|] eqn:Es; cbn [bind] in E; try discriminate. cbn [oldw].
  refine (last_stored sp k nf _ 0%nat sw os1 w _ _ _ E o _ j Hj); rewrite ?reads_length; try lia; [|rewrite Hl; exact Ho].
  assert (P : forall j, (j < number_of_cells k)%nat -> length (weights_now (bi e) s ws j) = nf).
  { intros j' Hj'. destruct Hs as (L & _ & L2 & L3). unfold weights_now, compute_weights. rewrite normalize_length. unfold w_air, w_bed, normalize_ref.
    assert (Tl : length (top_layer s j') = nf). { unfold top_layer. destruct (nth_error (sand s) j') as [b|] eqn:Eb; [|apply nth_error_None in Eb; lia]. destruct (L3 b (nth_error_In _ _ Eb)) as (A1 & A2 & _). destruct (Bed_Model.mass b) as [|t m]; [contradiction|]. apply A2. left. reflexivity. }
    rewrite Run_Proofs.map2_length; rewrite Run_Proofs.map2_length; rewrite ?normalize_length, ?map_length; congruence. }
  unfold start_weights in Es. rewrite Ht in Es. destruct t0; [destruct (bedcomp e)|]; injection Es as <-; try exact P. intros; exact Hg.
Qed.
