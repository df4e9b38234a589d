(** What the solvers 'pieter' and 'steadystatepieter' return. *)
From Coq Require Import QArith Lia Lqa List Bool Arith Setoid.
From Verif Require Import Base Num Utils_Model Solver_Model Solver_Spec Linear Solver_Proofs Solver_Iter Solver_Balance Pieter_Model Pieter_Spec Pieter_Proofs Pieter_Coefs Pieter_Balance Pieter_Unique Pieter_Whole.
Import ListNotations.
Open Scope Q_scope.

Lemma checked (k : pcfg) : workable k -> known_ends k -> max_iter k <> 0%nat -> pcheck k = Ok tt.
Proof.
  intros (Hy & Hx & _) (K1 & K2 & K3) Hm. unfold pcheck. assert (C : forall b, known_end b -> match b with Flux | Constant | Gradient => Ok tt | Circular => Raise NotImplementedError | _ => Raise ValueError end = Ok tt) by (intros b [-> | [-> | ->]]; reflexivity).
  rewrite (C _ K1). cbn [bind]. rewrite (C _ K2). cbn [bind]. rewrite K3. cbn [bind beq andb orb]. unfold pdistinct. destruct (Nat.eqb_spec (ny k) 0), (Nat.eqb_spec (ny k) 1); try lia; cbn [negb andb orb].
  all: destruct (Nat.eqb_spec (max_iter k) 0); [lia|]; destruct (Nat.eqb_spec (nx k) 0); [lia|]; try destruct (Nat.leb_spec 1 (nx k)); try lia; cbn [negb]; rewrite andb_false_r; reflexivity.
Qed.
Lemma fraction_ok sp (k : pcfg) f d w x : workable k -> known_ends k -> max_iter k <> 0%nat -> pieter_fraction sp k f d w x = Ok (piterate sp k f d w x (max_iter k - 1)).
Proof. intros. unfold pieter_fraction. rewrite checked by assumption. reflexivity. Qed.

Section Orderly.
Variable sp : (nat -> nat -> Q) -> (nat -> Q) -> nat -> Q.
Variable k : pcfg.
Variable f : flow.
Variable d : input.
Variables w x : nat -> Q.
Hypothesis Ho : orderly k f d w x.
Hypothesis Hsp : exact_solver (number_of_cells k) (pmatrix k f) sp.
Notation N := (number_of_cells k).

Lemma kept_small c : all_nonneg N c -> forall w', (forall i, (i < N)%nat -> 0 <= w' i <= w i) -> forall i, (i < N)%nat -> 0 <= memo (cells k) (reduced k d w' c) i <= w i.
Proof.
  intros Hc w' Hw' i Hi. destruct Ho as (O1 & _ & _ & _ & _ & _ & _ & _ & O9 & _ & O11 & _). rewrite memo_get by (rewrite cells_eq; exact Hi).
  destruct (reduced_nn k d O1 O11 O9 w' c i Hi (proj1 (Hw' i Hi)) (Hc i Hi)) as [R _]. specialize (Hw' i Hi). lra.
Qed.
Lemma improve_nn w' x' : all_nonneg N w' -> all_nonneg N x' -> all_nonneg N (improve sp k f d w' x').
Proof. intros. destruct Ho as (O1 & O2 & O3 & O4 & O5 & O6 & O7 & O8 & _ & _ & O11 & _). apply (new_nn sp k f d O1 O2 O3 O4 Hsp O6 O5 O7 O8 O11); assumption. Qed.

(** All rounds together, with an additional invariant. *)
Lemma run (J : (nat -> Q) -> (nat -> Q) -> Prop) :
  J w x ->
  (forall w' x' c, (forall i, (i < N)%nat -> 0 <= w' i <= w i) -> all_nonneg N x' -> all_nonneg N c -> J w' x' -> (forall i, (i < N)%nat -> c i = improve sp k f d w' x' i) ->
    anyn (cells k) (short k d w' c) = true -> J (memo (cells k) (reduced k d w' c)) c) ->
  exists o w' x', pieter_fraction sp k f d w x = Ok (Some o) /\ J w' x' /\ (forall i, (i < N)%nat -> 0 <= w' i <= w i) /\ all_nonneg N x' /\
    (forall i, (i < N)%nat -> ct o i = improve sp k f d w' x' i /\ 0 <= ct o i /\ pickup o i = demand k d w' (ct o) i /\ 0 <= weight o i <= w i /\ (converged o = true -> weight o i = w' i)) /\
    (converged o = true -> forall i, (i < N)%nat -> short k d w' (ct o) i = false).
Proof.
  intros J0 HJ. pose proof Ho as (O1 & O2 & O3 & O4 & O5 & O6 & O7 & O8 & O9 & O10 & O11 & O12 & O13). rewrite fraction_ok by assumption.
  set (I := fun w' x' : nat -> Q => J w' x' /\ (forall i, (i < N)%nat -> 0 <= w' i <= w i) /\ all_nonneg N x').
  assert (NN : forall w' x', I w' x' -> all_nonneg N (improve sp k f d w' x')) by (intros w' x' (_ & I2 & I3); apply improve_nn; [intros i Hi; apply I2, Hi | exact I3]).
  destruct (rounds sp k f d I) with (fuel := (max_iter k - 1)%nat) (w := w) (x := x) as (o & w' & x' & E & (J' & I2 & I3) & P & S).
  - intros w' x' HI i Hi. apply NN; [exact HI | rewrite <- cells_eq; exact Hi].
  - intros w' x' c HI Hc A. assert (Nc : all_nonneg N c) by (intros i Hi; rewrite Hc by (rewrite cells_eq; exact Hi); apply (NN w' x' HI i Hi)). pose proof HI as (J' & I2 & I3). split; [|split].
    + apply HJ with (x' := x'); try assumption. intros i Hi. apply Hc. rewrite cells_eq. exact Hi.
    + apply kept_small; assumption.
    + exact Nc.
  - split; [exact J0|]. split; [|exact O13]. intros i Hi. split. apply O12, Hi. apply Qle_refl.
  - rewrite cells_eq in P, S. exists o, w', x'. rewrite E. split; [reflexivity|]. split; [exact J'|]. split; [exact I2|]. split; [exact I3|]. split; [|exact S].
    intros i Hi. destruct (P i Hi) as (P1 & P2 & P3 & P4). pose proof (NN w' x' (conj J' (conj I2 I3)) i Hi) as P5.
    assert (C0 : 0 <= ct o i) by (rewrite P1; exact P5). repeat split; try assumption.
    + destruct (converged o). rewrite P3 by reflexivity. apply I2, Hi. rewrite P4 by reflexivity.
      destruct (reduced_nn k d O1 O11 O9 w' (ct o) i Hi (proj1 (I2 i Hi)) C0) as [R _]. apply R.
    + destruct (converged o). rewrite P3 by reflexivity. apply I2, Hi. rewrite P4 by reflexivity.
      destruct (reduced_nn k d O1 O11 O9 w' (ct o) i Hi (proj1 (I2 i Hi)) C0) as [R _]. specialize (I2 i Hi). lra.
Qed.
Lemma result_nonneg : exists o, pieter_fraction sp k f d w x = Ok (Some o) /\ forall i, (i < N)%nat -> 0 <= ct o i /\ 0 <= weight o i <= w i.
Proof.
  destruct (run (fun _ _ => True) I) as (o & w' & x' & E & _ & _ & _ & P & _). intros; exact I.
  exists o. split. exact E. intros i Hi. destruct (P i Hi) as (_ & P2 & _ & P4 & _). tauto.
Qed.
Lemma result_supply o : pieter_fraction sp k f d w x = Ok (Some o) -> converged o = true -> forall i, (i < N)%nat -> pickup o i <= mass d i + max_error k.
Proof.
  intros E' C i Hi. destruct (run (fun _ _ => True) I) as (o' & w' & x' & E & _ & W & _ & P & S0). intros; exact I. rewrite E' in E. injection E as <-.
  destruct (P i Hi) as (_ & P2 & P3 & _ & _). rewrite P3. pose proof Ho as (O1 & _ & _ & _ & _ & _ & _ & _ & O9 & _ & O11 & _).
  destruct (reduced_nn k d O1 O11 O9 w' (ct o) i Hi (proj1 (W i Hi)) P2) as (_ & _ & R & _). destruct (R (S0 C i Hi)) as [L|L]; [|exact L].
  pose proof O1 as (_ & _ & Hdt & HT & _). unfold demand. destruct (O11 i Hi) as (_ & _ & _ & _ & I5).
  assert (0 <= (ct o i - w' i * Cu d i) * (/ T k * dt k)) by (apply mul_nn; [lra | apply mul_nn; [apply Qlt_le_weak, Qinv_lt_0_compat, HT | lra]]).
  setoid_replace ((w' i * Cu d i - ct o i) / T k * dt k) with (- ((ct o i - w' i * Cu d i) * (/ T k * dt k))) by (field; lra). lra.
Qed.

(** ** Balance *)
Lemma law1 w' x' r c : (r <= ny k)%nat -> (c <= nx k)%nat -> free_column k c -> let z := improve sp k f d w' x' in let i := (r * width k + c)%nat in
  only (trunk k) (dsdn f r c / dt k * (z i - lCt d i)) + alone k f (fun i => z i - x' i) r c == dsdn f r c / T k * (qmin (w' i * Cu d i) (mass d i + x' i) - z i) + brought k f d (as_grid k z) r c.
Proof.
  intros Hr Hc F z i. pose proof Ho as (O1 & O2 & O3 & O4 & O5 & O6 & O7 & O8 & O9 & O10 & O11 & O12 & O13).
  pose proof (round_law sp k f d O1 O2 O3 O4 Hsp w' x' r c Hr Hc F) as L. cbv zeta in L. fold z in L. rewrite (forgotten_0 k f d O1 O7 x' r c Hr Hc), (settles1 k f d O6), (eroded_cases k f d O1 O2 O6 w' x' r c Hr Hc) in L.
  rewrite (brought_ext k f d _ (as_grid k z) r c Hr Hc) in L by (intros; apply (mix1 k d O6)). unfold cell in L. fold i in L. rewrite L. ring.
Qed.
Definition tied (w' x' : nat -> Q) : Prop := forall i, (i < N)%nat -> (dt k < T k -> w' i * Cu d i <= mass d i) /\ (T k <= dt k -> w' i * Cu d i <= mass d i + x' i + max_error k * T k / dt k).
Lemma tied_round w' x' c : (forall i, (i < N)%nat -> 0 <= w' i <= w i) -> all_nonneg N x' -> all_nonneg N c -> tied w' x' -> tied (memo (cells k) (reduced k d w' c)) c.
Proof.
  intros W X C H i Hi. pose proof Ho as (O1 & _ & _ & _ & _ & _ & _ & _ & O9 & _ & O11 & _). pose proof O1 as (_ & _ & Hdt & HT & _).
  rewrite memo_get by (rewrite cells_eq; exact Hi). destruct (H i Hi) as [H1 H2]. destruct (O11 i Hi) as (_ & _ & _ & I4 & I5). specialize (C i Hi).
  destruct (reduced_nn k d O1 O11 O9 w' c i Hi (proj1 (W i Hi)) C) as (R1 & R2 & R3 & R4).
  assert (IT : 0 < / T k) by (apply Qinv_lt_0_compat, HT). assert (ID : 0 < / dt k) by (apply Qinv_lt_0_compat, Hdt).
  assert (E0 : 0 <= max_error k * T k / dt k) by (apply mul_nn; [apply mul_nn; lra | lra]). split; intros Ht.
  - specialize (H1 Ht). assert (0 <= (w' i - reduced k d w' c i) * Cu d i) by (apply mul_nn; lra). lra.
  - destruct (short k d w' c i) eqn:E.
    + rewrite (R2 eq_refl). assert (mass d i * T k / dt k <= mass d i); [|lra]. apply Qle_shift_div_r. exact Hdt. assert (0 <= mass d i * (dt k - T k)) by (apply mul_nn; lra). lra.
    + unfold reduced. rewrite E. destruct (R3 eq_refl) as [L|L]. lra. unfold demand in L.
      assert (B : (w' i * Cu d i - c i) / T k * dt k * (T k / dt k) <= (mass d i + max_error k) * (T k / dt k)) by (apply mul_le_r; [apply mul_nn; lra | exact L]).
      setoid_replace ((w' i * Cu d i - c i) / T k * dt k * (T k / dt k)) with (w' i * Cu d i - c i) in B by (field; lra).
      setoid_replace ((mass d i + max_error k) * (T k / dt k)) with (mass d i * T k / dt k + max_error k * T k / dt k) in B by (field; lra).
      assert (mass d i * T k / dt k <= mass d i); [|lra]. apply Qle_shift_div_r. exact Hdt. assert (0 <= mass d i * (dt k - T k)) by (apply mul_nn; lra). lra.
Qed.
Lemma result_balance o : ample k d w -> no_side_wind_in_1d k f -> pieter_fraction sp k f d w x = Ok (Some o) ->
  forall r c, (r <= ny k)%nat -> (c <= nx k)%nat -> free_column k c -> 0 <= astray k f d o r c <= max_error k * area f r c.
Proof.
  intros Ha H1 E' r c Hr Hc F. pose proof Ho as (O1 & O2 & O3 & O4 & O5 & O6 & O7 & O8 & O9 & O10 & O11 & O12 & O13). pose proof O1 as (_ & _ & Hdt & HT & _).
  assert (IT : 0 < / T k) by (apply Qinv_lt_0_compat, HT). assert (ID : 0 < / dt k) by (apply Qinv_lt_0_compat, Hdt).
  destruct (run tied) as (o' & w' & x' & E & J & W & X & P & _).
  { intros i Hi. specialize (Ha i Hi). specialize (O13 i Hi). split; intros. exact Ha. assert (0 <= max_error k * T k / dt k) by (apply mul_nn; [apply mul_nn; lra | lra]). lra. }
  { intros. apply tied_round with (x' := x'); assumption. }
  rewrite E' in E. injection E as <-. set (i := (r * width k + c)%nat). assert (Hi : (i < N)%nat) by (apply in_grid; assumption).
  pose proof (law1 w' x' r c Hr Hc F) as L. cbv zeta in L. set (z := improve sp k f d w' x') in *. fold i in L.
  assert (A0 : alone k f (fun i => z i - x' i) r c == 0).
  { unfold alone. destruct (Nat.eqb_spec (ny k) 0) as [Hz|]; [|reflexivity]. assert (r = 0%nat) by lia. subst r. cbn [only]. rewrite (H1 Hz c Hc). unfold pos, neg. ring. }
  rewrite A0 in L. assert (Z : forall r c, within k r c -> as_grid k (ct o) r c == as_grid k z r c).
  { intros r' c' [Hr' Hc']. unfold as_grid, at_cell. destruct (P (r' * S (nx k) + c')%nat (in_grid k r' c' Hr' Hc')) as (-> & _). reflexivity. }
  unfold astray, gained. rewrite (brought_ext k f d _ _ r c Hr Hc Z). unfold at_cell. fold (width k). fold i. destruct (P i Hi) as (P1 & P2 & P3 & _). rewrite P3. unfold demand. rewrite P1. fold z.
  set (m := qmin (w' i * Cu d i) (mass d i + x' i)) in *. destruct (area_pos k f O2 r c Hr Hc) as (A & _). change (area f r c) with (dsdn f r c). set (a := dsdn f r c) in *.
  assert (M : 0 <= w' i * Cu d i - m <= max_error k * T k / dt k).
  { assert (E0 : 0 <= max_error k * T k / dt k) by (apply mul_nn; [apply mul_nn; lra | lra]). destruct (J i Hi) as [J1 J2]. specialize (X i Hi). destruct (O11 i Hi) as (_ & _ & _ & _ & I5).
    destruct (Qlt_le_dec (dt k) (T k)) as [C|C]. specialize (J1 C). unfold m, qmin. destruct (Qle_bool_spec (w' i * Cu d i) (mass d i + x' i)); lra.
    specialize (J2 C). unfold m, qmin. destruct (Qle_bool_spec (w' i * Cu d i) (mass d i + x' i)); lra. }
  assert (R : a * ((w' i * Cu d i - z i) / T k * dt k) + dt k * brought k f d (as_grid k z) r c - (if trunk k then a * (z i - lCt d i) else 0) == a * dt k / T k * (w' i * Cu d i - m)).
  { setoid_replace (brought k f d (as_grid k z) r c) with (only (trunk k) (a / dt k * (z i - lCt d i)) - a / T k * (m - z i)) by lra.
    unfold only. destruct (trunk k); field; repeat split; lra. }
  rewrite R. assert (AD : 0 <= a * dt k / T k) by (apply mul_nn; [apply mul_nn; lra | lra]). split. apply mul_nn; lra.
  assert (0 <= a * dt k / T k * (max_error k * T k / dt k - (w' i * Cu d i - m))) by (apply mul_nn; lra).
  setoid_replace (max_error k * a) with (a * dt k / T k * (max_error k * T k / dt k)) by (field; split; lra). lra.
Qed.
End Orderly.

(** ** The total *)
Section Total.
Variable k : pcfg.
Variable f : flow.
Variable d : input.
Lemma total_astray o : (1 <= nx k)%nat -> all_astray k f d o == over_inside k (astray k f d o).
Proof.
  intros Hx. unfold all_astray. rewrite !over_inside_sumn. change (over_rows k) with (sumn (S (ny k))). set (g := as_grid k (ct o)).
  assert (E : sumn (S (ny k)) (fun r => onwards k f g r 0%nat - onwards k f g r (nx k - 1)%nat) == sumn (S (ny k)) (fun r => sumn (nx k - 1) (fun j => brought k f d g r (S j)))).
  { transitivity (sumn (S (ny k)) (fun r => onwards k f g r 0%nat - onwards k f g r (nx k - 1)%nat) + sumn (S (ny k)) (fun r => sumn (nx k - 1) (fun j => sideways k f g (row_up k r) (S j))) - sumn (S (ny k)) (fun r => sumn (nx k - 1) (fun j => sideways k f g r (S j)))).
    { rewrite (cyclic_prev k (fun r => sumn (nx k - 1) (fun j => sideways k f g r (S j)))). ring. }
    rewrite <- sumn_plus. rewrite <- sumn_minus. apply sumn_ext. intros r Hr. rewrite <- (telescope (fun c => onwards k f g r c) (nx k - 1)). rewrite <- sumn_plus, <- sumn_minus. apply sumn_ext. intros j Hj.
    unfold brought, enters, leaves. change (Nat.eqb (S j) 0) with false. cbv iota. destruct (Nat.eqb_spec (S j) (nx k)); [lia|]. cbn [andb]. replace (S j - 1)%nat with j by lia. ring. }
  rewrite E. rewrite <- sumn_scale, <- sumn_plus, <- sumn_minus. apply sumn_ext. intros r Hr. rewrite <- sumn_scale, <- sumn_plus, <- sumn_minus. apply sumn_ext. intros j Hj. reflexivity.
Qed.
Lemma inside_free c : (0 < c < nx k)%nat -> free_column k c.
Proof. intros. split; intros []; lia. Qed.
End Total.
Lemma result_total sp (k : pcfg) f d w x o : orderly k f d w x -> exact_solver (number_of_cells k) (pmatrix k f) sp -> ample k d w -> no_side_wind_in_1d k f ->
  pieter_fraction sp k f d w x = Ok (Some o) -> 0 <= all_astray k f d o <= max_error k * over_inside k (area f).
Proof.
  intros Ho Hsp Ha H1 E. pose proof Ho as ((_ & Hx & _) & _). rewrite total_astray by exact Hx. rewrite !over_inside_sumn.
  assert (L : forall r j, (r < S (ny k))%nat -> (j < nx k - 1)%nat -> 0 <= astray k f d o r (S j) <= max_error k * area f r (S j)).
  { intros r j Hr Hj. apply (result_balance sp k f d w x Ho Hsp o Ha H1 E); try lia. apply inside_free. lia. }
  split. apply sumn_nonneg; intros r Hr. apply sumn_nonneg; intros j Hj. apply L; assumption.
  rewrite <- sumn_scale. apply sumn_le; intros r Hr. rewrite <- sumn_scale. apply sumn_le; intros j Hj. apply L; assumption.
Qed.
