(** Proofs about other units: one fraction. *)
From Coq Require Import QArith Lia Lqa List Bool Arith Setoid.
From Verif Require Import Base Num Utils_Model Bed_Model Solver_Model Solver_Spec Linear Solver_Proofs Solver_Iter Run_Model Units_Spec.
Import ListNotations.
Open Scope Q_scope.

(** What the solver reads, in the new units. *)
Definition input_rel (u : units) (n : nat) (d d' : input) : Prop := forall i, (i < n)%nat ->
  Cu d' i == per_area u * Cu d i /\ Cuf d' i == per_area u * Cuf d i /\ Cu0 d' i == per_area u * Cu0 d i /\ Solver_Model.mass d' i == per_area u * Solver_Model.mass d i /\
  lCt d' i == per_area u * lCt d i /\ lCu d' i == per_area u * lCu d i /\ lCuf d' i == per_area u * lCuf d i /\ lw d' i == lw d i /\ sat d' i == sat d i.
Lemma input_in_rel u n d : input_rel u n d (input_in u d).
Proof. intros i _. repeat split; reflexivity. Qed.

Section Units.
Variable (u : units).
Hypothesis Hu : proper u.
Lemma mpos : 0 < metre u. Proof. apply Hu. Qed.
Lemma spos : 0 < second u. Proof. apply Hu. Qed.
Lemma kpos : 0 < kilogram u. Proof. apply Hu. Qed.
Lemma div_pos a b : 0 < a -> 0 < b -> 0 < a / b.
Proof. intros Ha Hb. apply Qlt_shift_div_l. exact Hb. lra. Qed.
Lemma mul_pos a b : 0 < a -> 0 < b -> 0 < a * b.
Proof. apply Qmult_lt_0_compat. Qed.
Lemma cpos : 0 < per_area u. Proof. unfold per_area. apply div_pos. apply kpos. apply mul_pos; apply mpos. Qed.
Lemma vpos : 0 < velocity u. Proof. unfold velocity. apply div_pos. apply mpos. apply spos. Qed.
Lemma div_mul a b c : a / (b * c) == a / c / b.
Proof. unfold Qdiv. rewrite Qinv_mult_distr. ring. Qed.
Lemma scaled_pos c x : 0 < c -> Qle_bool 0 (c * x) = Qle_bool 0 x.
Proof. intros Hc. destruct (Qle_bool_spec 0 (c * x)), (Qle_bool_spec 0 x); try reflexivity; nra. Qed.
Lemma scaled_lt c a b a' b' : 0 < c -> a' == c * a -> b' == c * b -> Qltb a' b' = Qltb a b.
Proof. intros Hc Ha Hb. destruct (Qltb_spec a' b'), (Qltb_spec a b); try reflexivity; nra. Qed.
Lemma scaled_eqb c a a' : 0 < c -> a' == c * a -> Qeq_bool a' 0 = Qeq_bool a 0.
Proof. intros Hc Ha. destruct (Qeq_bool_spec a' 0), (Qeq_bool_spec a 0); try reflexivity; nra. Qed.
Lemma scaled_min c a b a' b' : 0 < c -> a' == c * a -> b' == c * b -> qmin a' b' == c * qmin a b.
Proof. intros Hc Ha Hb. unfold qmin. destruct (Qle_bool_spec a' b'), (Qle_bool_spec a b); nra. Qed.
Lemma upw_in c x : 0 < c -> upw (c * x) = upw x.
Proof. intros Hc. unfold upw. rewrite scaled_pos by exact Hc. reflexivity. Qed.

Section Matrix.
Variables (k : cfg) (f : flow).
Let k' := cfg_in u k.
Let f' := flow_in u f.
Hypothesis Hlat : trunk k = true \/ lateral k = Circular.
(** The steady state is per unit of time. *)
Definition rate : Q := if trunk k then 1 else 1 / second u.
Definition factor (c : nat) : Q := if border k c then 1 else rate.
Lemma rate_pos : 0 < rate.
Proof. unfold rate. destruct (trunk k). lra. apply div_pos. lra. apply spos. Qed.
Lemma factor_pos c : 0 < factor c.
Proof. unfold factor. destruct (border k c). lra. apply rate_pos. Qed.
Lemma plus_in r c : us_plus f' r c = velocity u * us_plus f r c. Proof. destruct c; reflexivity. Qed.
Lemma nplus_in r c : un_plus f' r c = velocity u * un_plus f r c. Proof. destruct r; reflexivity. Qed.
Lemma min_in r c : us_min k' f' r c = velocity u * us_min k f r c. Proof. unfold us_min. cbn [k' cfg_in nx]. destruct (Nat.eqb c (nx k)); reflexivity. Qed.
Lemma nmin_in r c : un_min k' f' r c = velocity u * un_min k f r c. Proof. unfold un_min. cbn [k' cfg_in ny]. destruct (Nat.eqb r (ny k)); reflexivity. Qed.
Lemma courant_s_in v v' r c : v' r c = velocity u * v r c -> courant_s k' f' v' r c == rate * courant_s k f v r c.
Proof.
  intros E. unfold courant_s, dsdni, tstep, rate. rewrite E. cbn [k' f' cfg_in flow_in trunk dt ds dn]. unfold velocity. pose proof mpos. pose proof spos.
  unfold Qdiv. rewrite !Qinv_mult_distr. set (a := / ds f r c). set (b := / dn f r c). clearbody a b. destruct (trunk k); field; split; lra.
Qed.
Lemma courant_n_in v v' r c : v' r c = velocity u * v r c -> courant_n k' f' v' r c == rate * courant_n k f v r c.
Proof.
  intros E. unfold courant_n, dsdni, tstep, rate. rewrite E. cbn [k' f' cfg_in flow_in trunk dt ds dn]. unfold velocity. pose proof mpos. pose proof spos.
  unfold Qdiv. rewrite !Qinv_mult_distr. set (a := / ds f r c). set (b := / dn f r c). clearbody a b. destruct (trunk k); field; split; lra.
Qed.
Lemma ti_in : Ti k' == rate * Ti k.
Proof. unfold Ti, tstep, rate. cbn [k' cfg_in trunk dt T]. pose proof spos. unfold Qdiv. rewrite !Qinv_mult_distr. set (a := / T k). clearbody a. destruct (trunk k); field; lra. Qed.
Lemma impl_in : implicitness k' = implicitness k. Proof. reflexivity. Qed.
Lemma sgn_in x : sgn (velocity u * x) = sgn x. Proof. unfold sgn. rewrite (upw_in _ _ vpos). reflexivity. Qed.
Lemma base0_in r c : base0 k' f' r c == rate * base0 k f r c.
Proof.
  unfold base0. rewrite impl_in, (courant_s_in (us f) (us f') r c eq_refl), (courant_n_in (un f) (un f') r c eq_refl), ti_in. cbn [f' flow_in us un k' cfg_in trunk]. rewrite !sgn_in.
  unfold rate. destruct (trunk k); ring.
Qed.
Lemma basepx_in r c : basepx k' f' r c == rate * basepx k f r c.
Proof. unfold basepx. rewrite impl_in, (courant_n_in (un_min k f) (un_min k' f') r c (nmin_in r c)). cbn [f' flow_in un]. rewrite (upw_in _ _ vpos). ring. Qed.
Lemma basemx_in r c : basemx k' f' r c == rate * basemx k f r c.
Proof. unfold basemx. rewrite impl_in, (courant_n_in (un_plus f) (un_plus f') r c (nplus_in r c)). cbn [f' flow_in un]. rewrite (upw_in _ _ vpos). ring. Qed.
Lemma basep1_in r c : basep1 k' f' r c == rate * basep1 k f r c.
Proof. unfold basep1. rewrite impl_in, (courant_s_in (us_min k f) (us_min k' f') r c (min_in r c)). cbn [f' flow_in us]. rewrite (upw_in _ _ vpos). ring. Qed.
Lemma basem1_in r c : basem1 k' f' r c == rate * basem1 k f r c.
Proof. unfold basem1. rewrite impl_in, (courant_s_in (us_plus f) (us_plus f') r c (plus_in r c)). cbn [f' flow_in us]. rewrite (upw_in _ _ vpos). ring. Qed.
Lemma fixed_rate r : fixed_row k r = true -> rate = 1.
Proof. unfold fixed_row, rate. destruct Hlat as [-> | ->]. reflexivity. discriminate. Qed.
Lemma fixed_in r : fixed_row k' r = fixed_row k r. Proof. reflexivity. Qed.
Lemma border_in c : border k' c = border k c. Proof. reflexivity. Qed.
Lemma ratio_in a b : metre u * a / (metre u * b) == a / b.
Proof. pose proof mpos. unfold Qdiv. rewrite Qinv_mult_distr. set (x := / b). clearbody x. field. lra. Qed.
Lemma A0_in r c : A0 k' f' r c == factor c * A0 k f r c.
Proof.
  unfold A0, factor. rewrite fixed_in, border_in. destruct (border k c); cbn [orb]. ring. destruct (fixed_row k r) eqn:E; cbn [orb]. rewrite (fixed_rate r E). ring. apply base0_in.
Qed.
Lemma Apx_in r c : Apx k' f' r c == factor c * Apx k f r c.
Proof. unfold Apx, factor. rewrite fixed_in, border_in. destruct (border k c); cbn [orb]. ring. destruct (fixed_row k r); cbn [orb]. ring. apply basepx_in. Qed.
Lemma Amx_in r c : Amx k' f' r c == factor c * Amx k f r c.
Proof. unfold Amx, factor. rewrite fixed_in, border_in. destruct (border k c); cbn [orb]. ring. destruct (fixed_row k r); cbn [orb]. ring. apply basemx_in. Qed.
Lemma Ap1_in r c : Ap1 k' f' r c == factor c * Ap1 k f r c.
Proof.
  unfold Ap1, factor. rewrite fixed_in. unfold border. cbn [k' cfg_in nx offshore]. destruct (Nat.eqb c (nx k)) eqn:E1; [rewrite !orb_true_r; ring|]. rewrite !orb_false_r.
  destruct (Nat.eqb c 0); [|destruct (fixed_row k r); [ring | apply basep1_in]]. destruct (fixed_row k r); [ring|].
  destruct (offshore k); try ring. cbn [f' flow_in ds]. rewrite ratio_in. ring.
Qed.
Lemma Am1_in r c : Am1 k' f' r c == factor c * Am1 k f r c.
Proof.
  unfold Am1, factor. rewrite fixed_in. unfold border. change (onshore_fixed k') with (onshore_fixed k). cbn [k' cfg_in nx onshore]. destruct (Nat.eqb c 0) eqn:E1; [rewrite !orb_true_r; cbn [orb]; ring|]. rewrite !orb_false_r. cbn [orb].
  destruct (Nat.eqb c (nx k)); [|destruct (fixed_row k r); [ring | apply basem1_in]]. destruct (fixed_row k r); [ring|]. destruct (onshore_fixed k); [ring|].
  destruct (onshore k); try ring. cbn [f' flow_in ds]. rewrite ratio_in. ring.
Qed.
Lemma Ap2_in r c : Ap2 k' f' r c == factor c * Ap2 k f r c.
Proof.
  unfold Ap2, factor, border. cbn [k' cfg_in offshore]. destruct (Nat.eqb c 0); [|ring]. cbn [orb]. destruct (offshore k); try ring. cbn [f' flow_in ds]. rewrite ratio_in. ring.
Qed.
Lemma Am2_in r c : Am2 k' f' r c == factor c * Am2 k f r c.
Proof.
  unfold Am2, factor, border. change (onshore_fixed k') with (onshore_fixed k). cbn [k' cfg_in onshore nx]. destruct (Nat.eqb c (nx k)); [|ring]. rewrite orb_true_r. destruct (onshore_fixed k); [ring|].
  destruct (onshore k); try ring. cbn [f' flow_in ds]. rewrite ratio_in. ring.
Qed.
Lemma flat_in (X X' : nat -> nat -> Q) i : (forall r c, X' r c == factor c * X r c) -> flat k' X' i == factor (i mod width k) * flat k X i.
Proof. intros H. unfold flat. apply H. Qed.
Lemma below_in d (v v' : nat -> Q) i j q : (i = (j + d)%nat -> v' j == q * v j) -> below d v' i j == q * below d v i j.
Proof. intros H. unfold below. destruct (Nat.eqb_spec i (j + d)). apply H; assumption. ring. Qed.
Lemma above_in d (v v' : nat -> Q) i j q : (j = (i + d)%nat -> v' i == q * v i) -> above d v' i j == q * above d v i j.
Proof. intros H. unfold above. destruct (Nat.eqb_spec j (i + d)). apply H; assumption. ring. Qed.
Lemma matrix_in i j : matrix k' f' i j == factor (i mod width k) * matrix k f i j.
Proof.
  assert (W : width k <> 0%nat) by (unfold width; lia).
  unfold matrix. change (width k') with (width k). change (ny k') with (ny k).
  assert (M2 : below 2 (fun m => flat k' (Am2 k' f') (m + 2)%nat) i j == factor (i mod width k) * below 2 (fun m => flat k (Am2 k f) (m + 2)%nat) i j)
    by (apply below_in; intros ->; apply flat_in, Am2_in).
  assert (M1 : below 1 (fun m => flat k' (Am1 k' f') (m + 1)%nat) i j == factor (i mod width k) * below 1 (fun m => flat k (Am1 k f) (m + 1)%nat) i j)
    by (apply below_in; intros ->; apply flat_in, Am1_in).
  assert (M0 : above 0 (flat k' (A0 k' f')) i j == factor (i mod width k) * above 0 (flat k (A0 k f)) i j) by (apply above_in; intros _; apply flat_in, A0_in).
  assert (P1 : above 1 (flat k' (Ap1 k' f')) i j == factor (i mod width k) * above 1 (flat k (Ap1 k f)) i j) by (apply above_in; intros _; apply flat_in, Ap1_in).
  assert (P2 : above 2 (flat k' (Ap2 k' f')) i j == factor (i mod width k) * above 2 (flat k (Ap2 k f)) i j) by (apply above_in; intros _; apply flat_in, Ap2_in).
  destruct (Nat.eqb (ny k) 0). { rewrite M2, M1, M0, P1, P2. ring. }
  assert (Q1 : below (width k * ny k) (flat k' (Apx k' f')) i j == factor (i mod width k) * below (width k * ny k) (flat k (Apx k f)) i j).
  { apply below_in. intros ->. replace ((j + width k * ny k) mod width k)%nat with (j mod width k)%nat by (rewrite Nat.mul_comm, Nat.mod_add; [reflexivity | exact W]). apply flat_in, Apx_in. }
  assert (Q2 : below (width k) (fun m => flat k' (Amx k' f') (width k + m)%nat) i j == factor (i mod width k) * below (width k) (fun m => flat k (Amx k f) (width k + m)%nat) i j).
  { apply below_in. intros ->. rewrite (Nat.add_comm (width k) j). apply flat_in, Amx_in. }
  assert (Q3 : above (width k) (fun m => flat k' (Apx k' f') (width k + m)%nat) i j == factor (i mod width k) * above (width k) (fun m => flat k (Apx k f) (width k + m)%nat) i j).
  { apply above_in. intros _. replace (i mod width k)%nat with ((width k + i) mod width k)%nat by (rewrite Nat.add_comm; replace (i + width k)%nat with (i + 1 * width k)%nat by lia; rewrite Nat.mod_add; [reflexivity | exact W]). apply flat_in, Apx_in. }
  assert (Q4 : above (width k * ny k) (flat k' (Amx k' f')) i j == factor (i mod width k) * above (width k * ny k) (flat k (Amx k f)) i j) by (apply above_in; intros _; apply flat_in, Amx_in).
  rewrite Q1, Q2, M2, M1, M0, P1, P2, Q3, Q4. ring.
Qed.
Variables (d d' : input).
Hypothesis Hd : input_rel u (cells k) d d'.
Lemma flux_in : flux u == per_area u * velocity u.
Proof. unfold flux, per_area, velocity. pose proof mpos. pose proof spos. field. split; lra. Qed.
Lemma end_in x y : flux u * x / (velocity u * y) == per_area u * (x / y).
Proof. rewrite flux_in. pose proof vpos. unfold Qdiv. rewrite Qinv_mult_distr. set (z := / y). clearbody z. field. lra. Qed.
Lemma source_in w cu cuf s w' cu' cuf' s' : w' == w -> cu' == per_area u * cu -> cuf' == per_area u * cuf -> s' == s -> source k' w' cu' cuf' s' == rate * per_area u * source k w cu cuf s.
Proof. intros E1 E2 E3 E4. unfold source. rewrite ti_in, E1, E2, E3, E4. ring. Qed.
Lemma before_lt i : (i < cells k)%nat -> (row_before k i < cells k)%nat.
Proof. unfold row_before, cells. intros H. destruct (Nat.ltb_spec i (width k)); lia. Qed.
Lemma after_lt i : (i < cells k)%nat -> (row_after k i < cells k)%nat.
Proof. unfold row_after, cells. intros H. destruct (Nat.ltb_spec i (width k * ny k)); lia. Qed.
Lemma explicit_in i : (i < cells k)%nat -> (i mod width k <> nx k)%nat -> (i mod width k <> 0)%nat -> explicit k' f' d' i == rate * per_area u * explicit k f d i.
Proof.
  intros Hi H1 H2.
  assert (W : width k <> 0%nat) by (unfold width; lia).
  assert (Hi1 : (i - 1 < cells k)%nat) by lia.
  assert (Hi2 : (i + 1 < cells k)%nat).
  { destruct (rc_of k i Hi) as (r & c & Hr & Hc & ->). rewrite Nat.add_comm, Nat.mod_add, Nat.mod_small in H1 by (unfold width; lia).
    replace (r * width k + c + 1)%nat with (r * width k + (c + 1))%nat by lia. apply rc_lt. exact Hr. lia. }
  unfold explicit. cbv zeta. change (width k') with (width k). change (row_before k' i) with (row_before k i). change (row_after k' i) with (row_after k i).
  set (r := (i / width k)%nat). set (c := (i mod width k)%nat).
  destruct (Hd i Hi) as (_ & _ & _ & _ & E1 & E2 & E3 & E4 & E5). destruct (Hd _ Hi1) as (_ & _ & _ & _ & E6 & _). destruct (Hd _ Hi2) as (_ & _ & _ & _ & E7 & _).
  destruct (Hd _ (before_lt i Hi)) as (_ & _ & _ & _ & E8 & _). destruct (Hd _ (after_lt i Hi)) as (_ & _ & _ & _ & E9 & _).
  rewrite (source_in _ _ _ _ _ _ _ _ E4 E2 E3 E5), E1, E6, E7, E8, E9, ti_in.
  rewrite (courant_s_in (us f) (us f') r c eq_refl), (courant_n_in (un f) (un f') r c eq_refl), (courant_n_in (un_min k f) (un_min k' f') r c (nmin_in r c)), (courant_n_in (un_plus f) (un_plus f') r c (nplus_in r c)),
    (courant_s_in (us_min k f) (us_min k' f') r c (min_in r c)), (courant_s_in (us_plus f) (us_plus f') r c (plus_in r c)).
  cbn [f' flow_in us un]. rewrite !sgn_in, !(upw_in _ _ vpos). ring.
Qed.
Lemma rhs_in w w' : (forall i, (i < cells k)%nat -> w' i == w i) -> forall i, (i < cells k)%nat -> rhs k' f' d' w' i == factor (i mod width k) * per_area u * rhs k f d w i.
Proof.
  intros Hw i Hi. destruct (Hd i Hi) as (E1 & E2 & E3 & E4 & E5 & E6 & E7 & E8 & E9). unfold rhs, factor, border. cbv zeta. change (width k') with (width k). change (nx k') with (nx k). set (c := (i mod width k)%nat). change (trunk k') with (trunk k).
  destruct (Nat.eqb_spec c (nx k)) as [N1|N1].
  { rewrite orb_true_r. cbn [k' cfg_in onshore onshore_flux constant_onshore_flux f' flow_in uu]. destruct (onshore k); try ring. rewrite E3. ring. rewrite end_in. ring. }
  destruct (Nat.eqb_spec c 0) as [N2|N2].
  { cbn [orb]. cbn [k' cfg_in offshore offshore_flux constant_offshore_flux f' flow_in uu]. destruct (offshore k); try ring. rewrite E3. ring. rewrite end_in. ring. }
  cbn [orb]. pose proof (source_in _ _ _ _ _ _ _ _ (Hw i Hi) E1 E2 E9) as S. pose proof (explicit_in i Hi N1 N2) as X. unfold rate in *.
  destruct (trunk k) eqn:Et.
  - rewrite E5, X, S. change (alpha k') with (alpha k). ring.
  - rewrite S. reflexivity.
Qed.

(** ** The solution and the iteration *)
Variables (sp sp' : (nat -> nat -> Q) -> (nat -> Q) -> nat -> Q).
Hypothesis Hex : exact_in u sp sp' k f.
Notation C := (per_area u).
Lemma mul_in x i : mulv (cells k) (matrix k' f') x i == factor (i mod width k) * mulv (cells k) (matrix k f) x i.
Proof. unfold mulv. rewrite <- sumn_scale. apply sumn_ext. intros j _. rewrite matrix_in. ring. Qed.
Lemma mul_scale n A c x i : mulv n A (fun j => c * x j) i == c * mulv n A x i.
Proof. unfold mulv. rewrite <- sumn_scale. apply sumn_ext. intros j _. ring. Qed.
Lemma solution_in w w' : (forall i, (i < cells k)%nat -> w' i == w i) ->
  forall i, (i < cells k)%nat -> sp' (matrix k' f') (rhs k' f' d' w') i == C * sp (matrix k f) (rhs k f d w) i.
Proof.
  intros Hw. destruct Hex as (H1 & H2 & H3). rewrite <- cells_eq in *.
  destruct (H1 (rhs k f d w)) as (x & X1 & X2). pose proof (H2 (rhs k f d w) (ex_intro _ x X1)) as S. pose proof (X2 _ S) as E.
  pose proof cpos as Hc.
  assert (S' : is_solution (cells k) (matrix k' f') (rhs k' f' d' w') (fun j => C * x j)).
  { intros i Hi. change (mulv (cells k) (matrix k' f') (fun j => C * x j) i == rhs k' f' d' w' i). rewrite mul_in, mul_scale, (rhs_in w w' Hw i Hi).
    pose proof (X1 i Hi) as Y. change (mulv (cells k) (matrix k f) x i == rhs k f d w i) in Y. rewrite Y. ring. }
  assert (R : is_solution (cells k) (matrix k' f') (rhs k' f' d' w') (sp' (matrix k' f') (rhs k' f' d' w'))) by exact (H3 (rhs k' f' d' w') (ex_intro _ _ S')). set (z := sp' (matrix k' f') (rhs k' f' d' w')) in *. clearbody z.
  assert (Z : is_solution (cells k) (matrix k f) (rhs k f d w) (fun j => / C * z j)).
  { intros i Hi. change (mulv (cells k) (matrix k f) (fun j => / C * z j) i == rhs k f d w i). rewrite mul_scale. pose proof (R i Hi) as Y. change (mulv (cells k) (matrix k' f') z i == rhs k' f' d' w' i) in Y.
    rewrite mul_in, (rhs_in w w' Hw i Hi) in Y. pose proof (factor_pos (i mod width k)) as Hf.
    assert (Y' : mulv (cells k) (matrix k f) z i == C * rhs k f d w i).
    { apply (Qmult_inj_l _ _ (factor (i mod width k))). lra. rewrite Y. ring. }
    rewrite Y'. field. lra. }
  intros i Hi. rewrite (E i Hi), <- (X2 _ Z i Hi). field. lra.
Qed.
Lemma anyn_in n b b' : (forall i, (i < n)%nat -> b' i = b i) -> anyn n b' = anyn n b.
Proof.
  intros H. apply eq_true_iff_eq. rewrite !anyn_spec. split; intros (i & Hi & E); exists i; (split; [exact Hi|]). rewrite <- (H i Hi). exact E. rewrite (H i Hi). exact E.
Qed.
Lemma remove_in guard n x x' : field_in C n x x' ->
  match remove_negatives guard n x, remove_negatives guard n x' with Some y, Some y' => field_in C n y y' | None, None => True | _, _ => False end.
Proof.
  intros Hx0. assert (Hx : forall i, (i < n)%nat -> x' i == C * x i) by exact Hx0. pose proof cpos as Hc. unfold remove_negatives.
  assert (Hn : forall i, (i < n)%nat -> negative x' i = negative x i) by (intros i Hi; unfold negative; apply (scaled_lt C); [exact Hc | apply Hx, Hi | ring]).
  rewrite (anyn_in n (negative x) (negative x') Hn), (anyn_in n (fun i => negb (negative x i)) (fun i => negb (negative x' i))) by (intros i Hi; rewrite (Hn i Hi); reflexivity).
  destruct (anyn n (negative x)); [|exact Hx0].
  assert (P : pos_sum n x' == C * pos_sum n x).
  { unfold pos_sum. rewrite <- sumn_scale. apply sumn_ext. intros i Hi. rewrite (Hn i Hi). destruct (negative x i). ring. apply Hx, Hi. }
  assert (N : neg_sum n x' == C * neg_sum n x).
  { unfold neg_sum. rewrite <- sumn_scale. apply sumn_ext. intros i Hi. rewrite (Hn i Hi). destruct (negative x i). apply Hx, Hi. ring. }
  rewrite (scaled_eqb C _ _ Hc P). destruct (Qeq_bool_spec (pos_sum n x) 0) as [Z|Z].
  - destruct (guard || negb _). intros i _. unfold in_unit. ring. exact I.
  - intros i Hi. unfold in_unit. rewrite !memo_get by exact Hi. rewrite (Hn i Hi). destruct (negative x i). ring. rewrite (Hx i Hi), P, N. field. split; [exact Z | lra].
Qed.
Lemma tidy_in x x' : field_in C (cells k) x x' ->
  match tidy k x, tidy k' x' with Some y, Some y' => field_in C (cells k) y y' | None, None => True | _, _ => False end.
Proof.
  intros Hx0. assert (Hx : forall i, (i < cells k)%nat -> x' i == C * x i) by exact Hx0. pose proof cpos as Hc. unfold tidy. change (trunk k') with (trunk k). change (cells k') with (cells k). apply remove_in. intros i Hi. unfold in_unit. rewrite !memo_get by exact Hi.
  unfold no_tiny_negative. rewrite (scaled_lt C (x i) 0 (x' i) 0 Hc (Hx i Hi)) by ring.
  rewrite (scaled_lt C (- Solver_Model.max_error k) (x i) (- Solver_Model.max_error k') (x' i) Hc) by (try apply Hx, Hi; cbn [k' cfg_in Solver_Model.max_error]; ring).
  destruct (_ && _). ring. apply Hx, Hi.
Qed.
Lemma demand_in w w' c c' i : (i < cells k)%nat -> w' i == w i -> c' i == C * c i -> demand k' d' w' c' i == C * demand k d w c i.
Proof.
  intros Hi Ew Ec. destruct (Hd i Hi) as (E1 & _). unfold demand. rewrite Ew, Ec, E1. cbn [k' cfg_in T dt]. pose proof spos. unfold Qdiv. rewrite Qinv_mult_distr. set (a := / T k). clearbody a. field. lra.
Qed.
Lemma short_in w w' c c' i : (i < cells k)%nat -> w' i == w i -> c' i == C * c i -> short k' d' w' c' i = short k d w c i.
Proof.
  intros Hi Ew Ec. destruct (Hd i Hi) as (E1 & _ & _ & E4 & _). unfold short. pose proof cpos as Hc. f_equal; apply (scaled_lt C); try exact Hc.
  reflexivity. rewrite (demand_in w w' c c' i Hi Ew Ec), E4. ring. ring. rewrite Ew, E1. ring.
Qed.
Lemma reduced_in w w' c c' i : (i < cells k)%nat -> w' i == w i -> c' i == C * c i -> reduced k' d' w' c' i == reduced k d w c i.
Proof.
  intros Hi Ew Ec. destruct (Hd i Hi) as (E1 & _ & _ & E4 & _). unfold reduced. rewrite (short_in w w' c c' i Hi Ew Ec). destruct (short k d w c i) eqn:S; [|exact Ew].
  unfold short in S. apply andb_true_iff in S. destruct S as (_ & S). destruct (Qltb_spec 0 (w i * Cu d i)) as [P|]; [|discriminate].
  assert (Hcu : ~ Cu d i == 0) by (intros Z; rewrite Z in P; lra). pose proof cpos as Hc. pose proof spos.
  rewrite E1, E4, Ec. cbn [k' cfg_in T dt]. unfold Qdiv at 2 4. rewrite (Qinv_mult_distr (second u) (dt k)). set (a := / dt k). clearbody a. field. repeat split; try lra; exact Hcu.
Qed.
Definition option_in (n : nat) (o o' : option outcome) : Prop := match o, o' with Some a, Some b => outcome_in u n a b | None, None => True | _, _ => False end.
Lemma iterate_in : forall fuel w w', (forall i, (i < cells k)%nat -> w' i == w i) -> option_in (cells k) (iterate sp k f d w fuel) (iterate sp' k' f' d' w' fuel).
Proof.
  induction fuel as [|n IH]; intros w w' Hw; cbn [iterate];
    pose proof (tidy_in (sp (matrix k f) (rhs k f d w)) (sp' (matrix k' f') (rhs k' f' d' w')) (solution_in w w' Hw)) as Ht;
    destruct (tidy k _) as [c|], (tidy k' _) as [c'|]; try contradiction; try exact I;
    change (cells k') with (cells k);
    rewrite (anyn_in (cells k) (short k d w c) (short k' d' w' c')) by (intros i Hi; apply short_in; [exact Hi | apply Hw, Hi | apply Ht, Hi]).
  - destruct (anyn (cells k) (short k d w c)); (split; [reflexivity|]); intros i Hi; cbn [ct Solver_Model.pickup weight converged]; unfold in_unit; (split; [apply Ht, Hi|]).
    + split. apply demand_in; [exact Hi | apply Hw, Hi | apply Ht, Hi]. rewrite !memo_get by exact Hi. rewrite Qmult_1_l. apply reduced_in; [exact Hi | apply Hw, Hi | apply Ht, Hi].
    + split. apply scaled_min. apply cpos. apply demand_in; [exact Hi | apply Hw, Hi | apply Ht, Hi]. apply (Hd i Hi). rewrite Qmult_1_l. apply Hw, Hi.
  - destruct (anyn (cells k) (short k d w c)).
    + apply IH. intros i Hi. rewrite !memo_get by exact Hi. apply reduced_in; [exact Hi | apply Hw, Hi | apply Ht, Hi].
    + split; [reflexivity|]. intros i Hi; cbn [ct Solver_Model.pickup weight converged]; unfold in_unit. split; [apply Ht, Hi|].
      split. apply scaled_min. apply cpos. apply demand_in; [exact Hi | apply Hw, Hi | apply Ht, Hi]. apply (Hd i Hi). rewrite Qmult_1_l. apply Hw, Hi.
Qed.
Lemma fraction_in w w' : (forall i, (i < cells k)%nat -> w' i == w i) ->
  match solve_fraction sp k f d w, solve_fraction sp' k' f' d' w' with Ok o, Ok o' => option_in (cells k) o o' | Raise e, Raise e' => e' = e | _, _ => False end.
Proof.
  intros Hw. unfold solve_fraction. change (check_boundaries k') with (check_boundaries k). destruct (check_boundaries k) as [[]|e]; cbn [bind]; [|reflexivity].
  change (distinct_offsets k') with (distinct_offsets k). destruct (negb (distinct_offsets k)); [reflexivity|]. change (max_iter k') with (max_iter k). destruct (max_iter k); [reflexivity|]. apply iterate_in, Hw.
Qed.
End Matrix.
End Units.
