(** Proofs that what lies downwind does not matter. *)
From Coq Require Import QArith Lia Lqa List Bool Arith Setoid.
From Verif Require Import Base Num Utils_Model Solver_Model Solver_Spec Linear Solver_Proofs Solver_Iter Solver_Balance Causal_Spec.
Import ListNotations.
Open Scope Q_scope.

(** A strictly dominant diagonal. *)
Lemma largest n (e : nat -> Q) : exists m, (m <= n)%nat /\ forall r, (r <= n)%nat -> e r <= e m.
Proof.
  induction n as [|n (m & Hm & H)]. exists 0%nat. split. lia. intros r Hr. replace r with 0%nat by lia. apply Qle_refl.
  destruct (Qlt_le_dec (e m) (e (S n))) as [L|L].
  - exists (S n). split. lia. intros r Hr. destruct (Nat.eq_dec r (S n)) as [-> |]. apply Qle_refl. specialize (H r ltac:(lia)). lra.
  - exists m. split. lia. intros r Hr. destruct (Nat.eq_dec r (S n)) as [-> |]. exact L. apply H. lia.
Qed.
Lemma dominant_le n (e a : nat -> Q) (p q : nat -> nat) b1 b2 : 0 <= b1 -> 0 <= b2 -> (forall r, (r <= n)%nat -> (p r <= n)%nat /\ (q r <= n)%nat /\ b1 + b2 < a r /\ a r * e r == b1 * e (p r) + b2 * e (q r)) ->
  forall r, (r <= n)%nat -> e r <= 0.
Proof.
  intros H1 H2 H. destruct (largest n e) as (m & Hm & Hx). destruct (H m Hm) as (Hp & Hq & Ha & E). pose proof (Hx _ Hp) as Lp. pose proof (Hx _ Hq) as Lq.
  assert (e m <= 0). { destruct (Qlt_le_dec 0 (e m)) as [L|]; [|assumption]. exfalso. pose proof (mul_nn b1 (e m - e (p m)) H1 ltac:(lra)). pose proof (mul_nn b2 (e m - e (q m)) H2 ltac:(lra)). pose proof (mul_pos (a m - b1 - b2) (e m) ltac:(lra) L). lra. }
  intros r Hr. specialize (Hx r Hr). lra.
Qed.
Lemma dominant n (e a : nat -> Q) (p q : nat -> nat) b1 b2 : 0 <= b1 -> 0 <= b2 -> (forall r, (r <= n)%nat -> (p r <= n)%nat /\ (q r <= n)%nat /\ b1 + b2 < a r /\ a r * e r == b1 * e (p r) + b2 * e (q r)) ->
  forall r, (r <= n)%nat -> e r == 0.
Proof.
  intros H1 H2 H r Hr. pose proof (dominant_le n e a p q b1 b2 H1 H2 H r Hr). pose proof (dominant_le n (fun r => - e r) a p q b1 b2 H1 H2) as G.
  assert (G' : forall r, (r <= n)%nat -> (p r <= n)%nat /\ (q r <= n)%nat /\ b1 + b2 < a r /\ a r * - e r == b1 * - e (p r) + b2 * - e (q r)).
  { intros s Hs. destruct (H s Hs) as (A & B & C & D). repeat split; try assumption. lra. }
  specialize (G G' r Hr). cbv beta in G. lra.
Qed.

Section Upwind.
Variables (k : cfg) (f f' : flow) (c : nat).
Hypothesis Hs : sensible k.
Hypothesis Hrect : rectangular k f.
Hypothesis Hrect' : rectangular k f'.
Hypothesis Hlat : lateral_uniform k f.
Hypothesis Hlat' : lateral_uniform k f'.
Hypothesis Hcirc : lateral k = Circular.
Hypothesis Hoff : offshore k = Flux \/ offshore k = Constant \/ trunk k = true /\ offshore k = Noflux.
Hypothesis Himp : fully_implicit k.
Hypothesis Hc : (c < nx k)%nat.
Hypothesis Hwind : onshore_upto k c f.
Hypothesis Hsame : same_wind_upto k c f f'.
Lemma row_congruent (b : bool) (al ts on Ti hs hs' h h' u u' u1 u1' v v' X0 X0' X1 Xp Xn : Q) : hs == hs' -> h == h' -> u == u' -> u1 == u1' -> v == v' -> X0 == X0' ->
  - (al * (ts / hs') * u') * X0' + (on + al * (ts / hs' * u1' + ts / h' * qabs v' + Ti)) * X1 + (if b then 0 else - (al * (ts / h')) * (v' * upw v') * Xp + al * (ts / h') * (v' * (1 - upw v')) * Xn) ==
  - (al * (ts / hs) * u) * X0 + (on + al * (ts / hs * u1 + ts / h * qabs v + Ti)) * X1 + (if b then 0 else - (al * (ts / h)) * (v * upw v) * Xp + al * (ts / h) * (v * (1 - upw v)) * Xn).
Proof.
  intros E1 E2 E3 E4 E5 E6. pose proof (upw_compat _ _ E5) as Eu. assert (Eq : qabs v == qabs v') by (rewrite <- !sgn_abs; unfold sgn; rewrite Eu, E5; reflexivity).
  rewrite Eq, Eu. generalize (qabs v') (upw v'). intros q p. destruct b; rewrite E1, E2, E3, E4, ?E5, E6; reflexivity.
Qed.
(** The row of the matrix for a cell into which the wind does not blow from the land. *)
Lemma upwind_row g x r j : rectangular k g -> lateral_uniform k g -> (r <= ny k)%nat -> (S j <= c)%nat -> 0 <= us g r (S j) ->
  mulv (cells k) (matrix k g) x (r * width k + S j) ==
  - (implicitness k * (tstep k / ds g 0%nat (S j)) * us g r j) * at_cell k x r j
  + (one k + implicitness k * (tstep k / ds g 0%nat (S j) * us g r (S j) + tstep k / dn g 0%nat 0%nat * qabs (un g 0%nat (S j)) + Ti k)) * at_cell k x r (S j)
  + (if Nat.eqb (ny k) 0 then 0 else - (implicitness k * (tstep k / dn g 0%nat 0%nat)) * (un g 0%nat (S j) * upw (un g 0%nat (S j))) * at_cell k x (prev_row k r) (S j)
      + implicitness k * (tstep k / dn g 0%nat 0%nat) * (un g 0%nat (S j) * (1 - upw (un g 0%nat (S j)))) * at_cell k x (next_row k r) (S j)).
Proof.
  intros Hg Hl Hr Hj Hu. pose proof Hs as (Hny & Hnx & _). rewrite row_sum by (assumption || lia).
  destruct (inside_rows k g Hcirc r (S j) ltac:(lia) ltac:(lia)) as (-> & -> & -> & -> & -> & -> & _).
  destruct (inside_rows k g Hcirc (next_row k r) (S j) ltac:(lia) ltac:(lia)) as (_ & _ & _ & _ & _ & _ & ->).
  rewrite base0_eq, basep1_eq by (assumption || lia). rewrite basem1_eq by (assumption || lia). replace (S j - 1)%nat with j by lia.
  destruct (upw_cases (us g r (S j))) as [(_ & ->) | (L & _)]; [|lra].
  assert (Ea : qabs (us g r (S j)) == us g r (S j)) by (unfold qabs; destruct (Qle_bool_spec 0 (us g r (S j))); lra).
  assert (Eb : qabs (un g r (S j)) == qabs (un g 0%nat (S j))) by (rewrite <- !sgn_abs; unfold sgn; rewrite (upw_compat _ _ (Hl r (S j) Hr ltac:(lia))), (Hl r (S j) Hr ltac:(lia)); reflexivity).
  rewrite Ea, Eb. destruct (Nat.eqb_spec (ny k) 0); [ring|]. rewrite basemx_eq, basepx_eq by (try assumption; try apply next_row_le; try assumption; lia). ring.
Qed.
Lemma first_row g x r : (r <= ny k)%nat -> mulv (cells k) (matrix k g) x (r * width k + 0) == at_cell k x r 0.
Proof.
  intros Hr. pose proof Hs as (Hny & Hnx & _). rewrite row_sum by (assumption || lia).
  assert (Z0 : A0 k g r 0 = 1) by reflexivity. assert (Z1 : Amx k g r 0 = 0) by reflexivity. assert (Z2 : Apx k g (next_row k r) 0 = 0) by reflexivity.
  assert (Z3 : Am1 k g r 0 = 0) by (unfold Am1; cbn [Nat.eqb]; rewrite orb_true_r; reflexivity). assert (Z4 : Am2 k g r 0 = 0) by (unfold Am2; destruct (Nat.eqb_spec 0 (nx k)); [lia | reflexivity]).
  assert (Z5 : Ap1 k g r 0 = 0) by (unfold Ap1; destruct (fixed_row k r || Nat.eqb 0 (nx k)); [reflexivity|]; destruct Hoff as [-> | [-> | (_ & ->)]]; reflexivity).
  assert (Z6 : Ap2 k g r 0 = 0) by (unfold Ap2; cbn [Nat.eqb]; destruct Hoff as [-> | [-> | (_ & ->)]]; reflexivity).
  rewrite Z0, Z1, Z2, Z3, Z4, Z5, Z6. destruct (Nat.eqb (ny k) 0); ring.
Qed.
Lemma upwind_solution d d' w w' x x' : same_input_upto k c d d' -> agree_upto k c w w' -> solves (cells k) (matrix k f) (rhs k f d w) x -> solves (cells k) (matrix k f') (rhs k f' d' w') x' -> agree_upto k c x x'.
Proof.
  intros (S1 & S2 & S3 & S4 & S5 & S6) Hw Hx Hx' r j. revert r. pose proof Hsame as (F1 & F2 & F3 & F4 & F5). induction j as [|j IH]; intros r Hr Hj.
  - pose proof (Hx _ (rc_lt k r 0 Hr ltac:(lia))) as E. pose proof (Hx' _ (rc_lt k r 0 Hr ltac:(lia))) as E'. rewrite first_row in E, E' by assumption. rewrite E, E'.
    rewrite !rhs_rc by lia. cbv zeta. destruct (Nat.eqb_spec 0 (nx k)); [lia|]. cbn [Nat.eqb]. pose proof (S3 r 0%nat Hr ltac:(lia)) as A. pose proof (F3 r 0%nat Hr ltac:(lia)) as B. unfold at_cell in A. fold (width k) in A.
    destruct (offshore k); cbn [prescribed]; rewrite ?A, ?B; reflexivity.
  - set (e := fun r => at_cell k x r (S j) - at_cell k x' r (S j)). enough (G : forall r, (r <= ny k)%nat -> e r == 0) by (specialize (G r Hr); unfold e in G; lra). clear r Hr.
    pose proof (F2 0%nat (S j) ltac:(lia) Hj) as U. pose proof (F4 0%nat (S j) ltac:(lia) Hj) as D. pose proof (F5 0%nat 0%nat ltac:(lia) ltac:(lia)) as N. pose proof (one_Ti k Hs) as Ho. pose proof (al_nn k Hs) as Ha.
    set (al := implicitness k) in *. set (v := un f 0%nat (S j)) in *. set (an := tstep k / dn f 0%nat 0%nat) in *. set (as_ := tstep k / ds f 0%nat (S j)) in *.
    assert (Pn : 0 < an) by (unfold an; apply Qlt_shift_div_l; [exact (h_pos k f Hrect) | pose proof (ts_pos k Hs); lra]).
    assert (Ps : 0 < as_) by (unfold as_; apply Qlt_shift_div_l; [apply (hs_pos k f Hrect); lia | pose proof (ts_pos k Hs); lra]).
    set (lane := if Nat.eqb (ny k) 0 then 0 else al * an). assert (Hl : 0 <= lane <= al * an) by (unfold lane; pose proof (mul_nn al an Ha ltac:(lra)); destruct (Nat.eqb (ny k) 0); lra).
    assert (V1 : 0 <= v * upw v) by (destruct (upw_cases v) as [(L & ->) | (L & ->)]; lra). assert (V2 : 0 <= - (v * (1 - upw v))) by (destruct (upw_cases v) as [(L & ->) | (L & ->)]; lra).
    assert (V3 : v * upw v - v * (1 - upw v) == qabs v) by (rewrite <- sgn_abs; unfold sgn; ring).
    apply (dominant (ny k) e (fun r => one k + al * (as_ * us f r (S j) + an * qabs v + Ti k)) (prev_row k) (next_row k) (lane * (v * upw v)) (lane * - (v * (1 - upw v)))).
    + apply mul_nn; lra.
    + apply mul_nn; lra.
    + intros r Hr. split; [apply prev_row_le; exact Hr|]. split; [apply next_row_le; exact Hr|]. pose proof (Hwind r (S j) Hr Hj) as Hu. split.
      * pose proof (mul_nn as_ _ (Qlt_le_weak _ _ Ps) Hu) as M1. pose proof (mul_nn al _ Ha M1) as M2. pose proof (mul_nn (al * an - lane) (v * upw v - v * (1 - upw v)) ltac:(lra) ltac:(lra)) as M3.
        assert (M4 : lane * (v * upw v) + lane * - (v * (1 - upw v)) == lane * qabs v) by (rewrite <- V3; ring). rewrite V3 in M3. rewrite M4. lra.
      * pose proof (Hx _ (rc_lt k r (S j) Hr ltac:(lia))) as E. pose proof (Hx' _ (rc_lt k r (S j) Hr ltac:(lia))) as E'.
        rewrite upwind_row in E by assumption. rewrite upwind_row in E'; [|assumption|assumption|exact Hr|exact Hj|rewrite <- (F1 r (S j) Hr Hj); exact Hu].
        rewrite (rhs_implicit k f d Himp w r (S j) Hr) in E by lia. rewrite (rhs_implicit k f' d' Himp w' r (S j) Hr) in E' by lia.
        rewrite (row_congruent (Nat.eqb (ny k) 0) (implicitness k) (tstep k) (one k) (Ti k) _ _ _ _ _ _ _ _ _ _ (at_cell k x r j) _ (at_cell k x' r (S j)) (at_cell k x' (prev_row k r) (S j)) (at_cell k x' (next_row k r) (S j)) D N (F1 r j Hr ltac:(lia)) (F1 r (S j) Hr Hj) U (IH r Hr ltac:(lia))) in E'.
        fold al an as_ v in E. fold al an as_ v in E'.
        assert (R : (if trunk k then lCt d' (r * width k + S j)%nat else 0) + Ti k * (w' (r * width k + S j)%nat * capacity d' (r * width k + S j)%nat)
                    == (if trunk k then lCt d (r * width k + S j)%nat else 0) + Ti k * (w (r * width k + S j)%nat * capacity d (r * width k + S j)%nat)).
        { pose proof (S1 r (S j) Hr Hj) as A1. pose proof (S2 r (S j) Hr Hj) as A2. pose proof (S5 r (S j) Hr Hj) as A5. pose proof (S6 r (S j) Hr Hj) as A6. pose proof (Hw r (S j) Hr Hj) as A7. unfold at_cell in *. fold (width k) in *.
          unfold capacity. rewrite A1, A2, A6, A7. destruct (trunk k); [rewrite A5|]; reflexivity. }
        rewrite R, <- E in E'. clear R E. unfold e. unfold lane. destruct (Nat.eqb (ny k) 0); lra.
Qed.
End Upwind.

(** * The iteration *)
Lemma upto_sym k c x x' : agree_upto k c x x' -> agree_upto k c x' x.
Proof. intros H r j Hr Hj. symmetry. apply H; assumption. Qed.
Lemma upto2_sym k c x x' : agree_upto2 k c x x' -> agree_upto2 k c x' x.
Proof. intros H r j Hr Hj. symmetry. apply H; assumption. Qed.
Lemma upto_trans k c x y z : agree_upto k c x y -> agree_upto k c y z -> agree_upto k c x z.
Proof. intros H H' r j Hr Hj. rewrite (H r j Hr Hj). apply H'; assumption. Qed.
Lemma input_sym k c d d' : same_input_upto k c d d' -> same_input_upto k c d' d.
Proof. intros (A & B & C & D & E & F). repeat split; apply upto_sym; assumption. Qed.
Lemma qltb_same a b a' b' : a == a' -> b == b' -> Qltb a b = Qltb a' b'.
Proof. intros H H'. destruct (Qltb_spec a b), (Qltb_spec a' b'); try reflexivity; lra. Qed.
(** What one step of the iteration sees of a cell. *)
Section Cell.
Variables (k : cfg) (d d' : input) (w w' x x' : nat -> Q) (c r j : nat).
Hypothesis Hd : same_input_upto k c d d'.
Hypothesis Hw : agree_upto k c w w'.
Hypothesis Hx : agree_upto k c x x'.
Hypothesis Hr : (r <= ny k)%nat.
Hypothesis Hj : (j <= c)%nat.
Notation i := (r * width k + j)%nat.
Lemma demand_same : demand k d w x i == demand k d' w' x' i.
Proof.
  destruct Hd as (A & _). unfold demand. pose proof (A r j Hr Hj) as E1. pose proof (Hw r j Hr Hj) as E2. pose proof (Hx r j Hr Hj) as E3. unfold at_cell in *. fold (width k) in *. rewrite E1, E2, E3. reflexivity.
Qed.
Lemma short_same : short k d w x i = short k d' w' x' i.
Proof.
  destruct Hd as (A & _ & _ & D & _). unfold short. pose proof demand_same as E0. pose proof (A r j Hr Hj) as E1. pose proof (Hw r j Hr Hj) as E2. pose proof (D r j Hr Hj) as E4. unfold at_cell in *. fold (width k) in *. f_equal; apply qltb_same; rewrite ?E0, ?E1, ?E2, ?E4; reflexivity.
Qed.
Lemma reduced_same : reduced k d w x i == reduced k d' w' x' i.
Proof.
  destruct Hd as (A & _ & _ & D & _). unfold reduced. rewrite short_same. pose proof (A r j Hr Hj) as E1. pose proof (Hw r j Hr Hj) as E2. pose proof (Hx r j Hr Hj) as E3. pose proof (D r j Hr Hj) as E4. unfold at_cell in *. fold (width k) in *.
  destruct (short k d' w' x' i); rewrite ?E1, ?E2, ?E3, ?E4; reflexivity.
Qed.
Lemma taken_same : qmin (demand k d w x i) (mass d i) == qmin (demand k d' w' x' i) (mass d' i).
Proof.
  destruct Hd as (_ & _ & _ & D & _). pose proof demand_same as E0. pose proof (D r j Hr Hj) as E4. unfold at_cell in *. fold (width k) in *. unfold qmin.
  destruct (Qle_bool_spec (demand k d w x i) (mass d i)), (Qle_bool_spec (demand k d' w' x' i) (mass d' i)); lra.
Qed.
End Cell.

(** One run of the iteration, as much as is needed of it. *)
Section Run.
Variables (sp sp' : (nat -> nat -> Q) -> (nat -> Q) -> nat -> Q) (k : cfg) (f f' : flow) (d d' : input) (c : nat).
Notation N := (cells k).
Notation sol w := (sp (matrix k f) (rhs k f d w)).
Notation sol' w := (sp' (matrix k f') (rhs k f' d' w)).
Notation nonneg w := (forall i, (i < N)%nat -> 0 <= w i).
Hypothesis Hc : (c < nx k)%nat.
Hypothesis Hd : same_input_upto k c d d'.
Hypothesis Hsol : forall w w', nonneg w -> nonneg w' -> agree_upto k c w w' -> agree_upto k c (sol w) (sol' w').
Hypothesis Hnn' : forall w, nonneg w -> nonneg (sol' w).
Hypothesis Hred' : forall w x, nonneg w -> nonneg x -> forall i, (i < N)%nat -> 0 <= reduced k d' w x i.
Lemma tidy_upto x z : (forall i, (i < N)%nat -> z i = x i) -> agree_upto k c z x.
Proof. intros H r j Hr Hj. unfold at_cell. fold (width k). rewrite H. reflexivity. apply rc_lt; lia. Qed.
(** The first run has stopped: the second does not change anything upwind any more. *)
Lemma stationary w x : nonneg w -> agree_upto k c x (sol w) -> (forall r j, (r <= ny k)%nat -> (j <= c)%nat -> short k d w x (r * width k + j) = false) ->
  forall fuel w' o', nonneg w' -> agree_upto k c w w' -> iterate sp' k f' d' w' fuel = Some o' -> converged o' = true ->
  same_outcome_upto k c {| ct := x; pickup := fun i => qmin (demand k d w x i) (mass d i); weight := w; converged := true |} o'.
Proof.
  intros Hw Hx Hsh. induction fuel as [|n IH]; intros w' o' Hw' Ha H Hcv; cbn [iterate] in H; destruct (tidy_nonneg_same k (sol' w') (Hnn' w' Hw')) as (z & Et & Hz); rewrite Et in H;
    assert (Hxz : agree_upto k c x z) by (apply (upto_trans k c _ _ _ Hx), (upto_trans k c _ _ _ (Hsol w w' Hw Hw' Ha)), upto_sym, tidy_upto, Hz);
    destruct (anyn N (short k d' w' z)) eqn:Es.
  - injection H as <-. discriminate.
  - injection H as <-. split; [exact Hxz|]. split; [|exact Ha]. intros r j Hr Hj. unfold at_cell. cbn [pickup]. apply (taken_same k d d' w w' x z c r j); assumption.
  - apply (IH (memo N (reduced k d' w' z))); [| |exact H|exact Hcv].
    + intros i Hi. rewrite memo_get by exact Hi. apply Hred'; try assumption. intros i' Hi'. rewrite (Hz i' Hi'). apply Hnn'; assumption.
    + intros r j Hr Hj. rewrite (Ha r j Hr Hj). unfold at_cell. fold (width k). rewrite memo_get by (apply rc_lt; lia). unfold reduced. rewrite <- (short_same k d d' w w' x z c r j) by assumption. rewrite (Hsh r j Hr Hj). reflexivity.
  - injection H as <-. split; [exact Hxz|]. split; [|exact Ha]. intros r j Hr Hj. unfold at_cell. cbn [pickup]. apply (taken_same k d d' w w' x z c r j); assumption.
Qed.
End Run.
Lemma outcome_sym k c o o' : same_outcome_upto k c o o' -> same_outcome_upto k c o' o.
Proof. intros (A & B & C). repeat split; apply upto_sym; assumption. Qed.
Section Both.
Variables (sp sp' : (nat -> nat -> Q) -> (nat -> Q) -> nat -> Q) (k : cfg) (f f' : flow) (d d' : input) (c : nat).
Notation N := (cells k).
Notation sol w := (sp (matrix k f) (rhs k f d w)).
Notation sol' w := (sp' (matrix k f') (rhs k f' d' w)).
Notation nonneg w := (forall i, (i < N)%nat -> 0 <= w i).
Hypothesis Hc : (c < nx k)%nat.
Hypothesis Hd : same_input_upto k c d d'.
Hypothesis Hsol : forall w w', nonneg w -> nonneg w' -> agree_upto k c w w' -> agree_upto k c (sol w) (sol' w').
Hypothesis Hnn : forall w, nonneg w -> nonneg (sol w).
Hypothesis Hnn' : forall w, nonneg w -> nonneg (sol' w).
Hypothesis Hred : forall w x, nonneg w -> nonneg x -> forall i, (i < N)%nat -> 0 <= reduced k d w x i.
Hypothesis Hred' : forall w x, nonneg w -> nonneg x -> forall i, (i < N)%nat -> 0 <= reduced k d' w x i.
Lemma none_short (e : input) w x : anyn N (short k e w x) = false -> forall r j, (r <= ny k)%nat -> (j <= c)%nat -> short k e w x (r * width k + j) = false.
Proof. intros H r j Hr Hj. apply (anyn_false N _ H). apply rc_lt; lia. Qed.
Lemma both_iterate : forall fuel fuel' w w' o o', nonneg w -> nonneg w' -> agree_upto k c w w' -> iterate sp k f d w fuel = Some o -> iterate sp' k f' d' w' fuel' = Some o' -> converged o = true -> converged o' = true ->
  same_outcome_upto k c o o'.
Proof.
  induction fuel as [|n IH]; intros fuel' w w' o o' Hw Hw' Ha H H' Hcv Hcv'; pose proof H as H0; cbn [iterate] in H; destruct (tidy_nonneg_same k (sol w) (Hnn w Hw)) as (x & Et & Hx); rewrite Et in H;
    destruct (anyn N (short k d w x)) eqn:Es.
  - injection H as <-. discriminate.
  - injection H as <-. apply (stationary sp sp' k f f' d d' c Hc Hd Hsol Hnn' Hred' w x Hw (tidy_upto k c Hc _ _ Hx) (none_short d w x Es) fuel' w' o'); assumption.
  - pose proof H' as H0'. destruct fuel' as [|n']; cbn [iterate] in H'; destruct (tidy_nonneg_same k (sol' w') (Hnn' w' Hw')) as (x' & Et' & Hx'); rewrite Et' in H'; destruct (anyn N (short k d' w' x')) eqn:Es'.
    + injection H' as <-. discriminate.
    + injection H' as <-. apply outcome_sym. apply (stationary sp' sp k f' f d' d c Hc (input_sym k c d d' Hd)) with (fuel := S n) (w' := w); try assumption.
      * intros v v' Hv Hv' Hvv. apply upto_sym, Hsol; try assumption. apply upto_sym, Hvv.
      * apply tidy_upto; assumption.
      * apply none_short, Es'.
      * apply upto_sym, Ha.
    + apply (IH n' (memo N (reduced k d w x)) (memo N (reduced k d' w' x')) o o'); [| | |exact H|exact H'|exact Hcv|exact Hcv'].
      * intros i Hi. rewrite memo_get by exact Hi. apply Hred; try assumption. intros i' Hi'. rewrite (Hx i' Hi'). apply Hnn; assumption.
      * intros i Hi. rewrite memo_get by exact Hi. apply Hred'; try assumption. intros i' Hi'. rewrite (Hx' i' Hi'). apply Hnn'; assumption.
      * intros r j Hr Hj. unfold at_cell. fold (width k). rewrite !memo_get by (apply rc_lt; lia). apply (reduced_same k d d' w w' x x' c r j); try assumption.
        apply (upto_trans k c _ _ _ (tidy_upto k c Hc _ _ Hx)), (upto_trans k c _ _ _ (Hsol w w' Hw Hw' Ha)), upto_sym, tidy_upto; assumption.
    + injection H' as <-. apply outcome_sym. apply (stationary sp' sp k f' f d' d c Hc (input_sym k c d d' Hd)) with (fuel := S n) (w' := w); try assumption.
      * intros v v' Hv Hv' Hvv. apply upto_sym, Hsol; try assumption. apply upto_sym, Hvv.
      * apply tidy_upto; assumption.
      * apply none_short, Es'.
      * apply upto_sym, Ha.
  - injection H as <-. apply (stationary sp sp' k f f' d d' c Hc Hd Hsol Hnn' Hred' w x Hw (tidy_upto k c Hc _ _ Hx) (none_short d w x Es) fuel' w' o'); assumption.
Qed.
End Both.

Lemma quiet_offshore k f : quiet_ends k f -> lateral k = Circular /\ (offshore k = Flux \/ offshore k = Constant \/ trunk k = true /\ offshore k = Noflux).
Proof. intros [(H1 & _ & H3) | ((H1 & _ & H3) & _)]; (split; [exact H3|]); [exact H1 | destruct H1; auto]. Qed.
Lemma downwind sp sp' k f f' d d' w w' c o o' : well_posed sp k f d w -> well_posed sp' k f' d' w' -> differ_downwind k c f f' d d' w w' ->
  solve_fraction sp k f d w = Ok (Some o) -> solve_fraction sp' k f' d' w' = Ok (Some o') -> converged o = true -> converged o' = true -> same_outcome_upto k c o o'.
Proof.
  intros (A1 & A2 & A3 & A4 & A5 & A6 & A7 & A8 & A9 & A10 & A11) (B1 & B2 & B3 & B4 & B5 & B6 & B7 & B8 & B9 & B10 & B11) (Hc & Hw & Hf & Hd & Ha) E E' Hv Hv'.
  apply solve_fraction_inv in E. apply solve_fraction_inv in E'. symmetry in E, E'. destruct (quiet_offshore k f A5) as (Hl & Ho). unfold all_nonneg in *. rewrite <- cells_eq in A11, B11.
  destruct (quiet_good k f A1 A2 A3 A4 A5) as (V1 & V2). destruct (quiet_good k f' B1 B2 B3 B4 B5) as (V1' & V2').
  apply (both_iterate sp sp' k f f' d d' c Hc Hd) with (fuel := (max_iter k - 1)%nat) (fuel' := (max_iter k - 1)%nat) (w := w) (w' := w'); try assumption.
  - intros v v' Hn Hn' Hvv. apply (upwind_solution k f f' c A1 A2 B2 A3 B3 Hl Ho A6 Hc Hw Hf d d' v v'); try assumption; apply sol_solves; assumption.
  - intros v Hn. apply (sol_nonneg sp k f d A10 A1 V1 V2 A6 A7 A8 v Hn).
  - intros v Hn. apply (sol_nonneg sp' k f' d' B10 B1 V1' V2' B6 B7 B8 v Hn).
  - intros v x Hn Hx i Hi. apply (reduced_facts k d A1 A7 A9 v x i Hi (Hn i Hi) (Hx i Hi)).
  - intros v x Hn Hx i Hi. apply (reduced_facts k d' B1 B7 B9 v x i Hi (Hn i Hi) (Hx i Hi)).
Qed.
