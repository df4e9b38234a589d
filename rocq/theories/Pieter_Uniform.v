(** Uniform fields in the solvers 'pieter' and 'steadystatepieter'. *)
From Coq Require Import QArith Lia Lqa List Bool Arith Setoid.
From Verif Require Import Base Num Utils_Model Solver_Model Solver_Spec Linear Solver_Proofs Solver_Iter Solver_Balance Pieter_Model Pieter_Spec Pieter_Proofs Pieter_Coefs Pieter_Balance Pieter_Unique Pieter_Whole Pieter_Outcome.
Import ListNotations.
Open Scope Q_scope.

Lemma blown_same u a : blown u a a == u * a.
Proof. rewrite blown_pos. unfold pos, neg. destruct (upw_cases u) as [[_ ->]|[_ ->]]; ring. Qed.
Lemma blown_uni u v a b C : u == v -> a == C -> b == C -> blown u a b == v * C.
Proof. intros H1 H2 H3. rewrite (blown_compat _ _ _ _ _ _ H1 H2 H3). apply blown_same. Qed.

Section Uniform.
Variable k : pcfg.
Variable f : flow.
Variable d : input.
Variables u v : Q.
Hypothesis Hw : workable k.
Hypothesis Hrect : rectangular k f.
Hypothesis Hknown : known_ends k.
Hypothesis Hu : uniform_wind k f u v.

Lemma uni_side g C r c : (forall r c, within k r c -> g r c == C) -> (r <= ny k)%nat -> (c <= nx k)%nat -> sideways k f g r c == ds f 0%nat c * (v * C).
Proof.
  intros G Hr Hc. assert (Hd : (row_down k r <= ny k)%nat) by (unfold row_down; destruct (Nat.eqb_spec r (ny k)); lia).
  unfold sideways. rewrite (blown_uni _ v _ _ C); [rewrite (ds_eq k f Hrect r 0%nat c) by lia; ring | | apply G; split; assumption | apply G; split; assumption].
  destruct (Hu r c Hr Hc) as [_ ->]. destruct (Hu _ c Hd Hc) as [_ ->]. field.
Qed.
Lemma uni_on g C r c : (forall r c, within k r c -> g r c == C) -> (r <= ny k)%nat -> (S c <= nx k)%nat -> onwards k f g r c == dn f r c * (u * C).
Proof.
  intros G Hr Hc. unfold onwards. rewrite (blown_uni _ u _ _ C); [ring | | apply G; split; lia | apply G; split; lia].
  destruct (Hu r c Hr ltac:(lia)) as [-> _]. destruct (Hu r (S c) Hr Hc) as [-> _]. field.
Qed.
Lemma uni_brought g C r c : (forall r c, within k r c -> g r c == C) -> (r <= ny k)%nat -> (c <= nx k)%nat -> free_column k c -> onshore k <> Flux ->
  brought k f d g r c == if Nat.eqb c 0 && beq (offshore k) Flux then dn f r c * u * (offshore_flux k * at_cell k (Cu0 d) r 0 - C) else 0.
Proof.
  intros G Hr Hc [F1 F2] Hon. destruct Hw as (_ & Hx & _). destruct Hknown as (K1 & K2 & _). unfold brought.
  assert (Hup : (row_up k r <= ny k)%nat) by (unfold row_up; destruct r; lia). rewrite (uni_side g C _ c G Hup Hc), (uni_side g C r c G Hr Hc). unfold enters, leaves.
  destruct (Nat.eqb_spec c 0) as [->|C0]; cbn [andb].
  - destruct (Nat.eqb_spec 0 (nx k)); [lia|]. destruct K1 as [E|[E|E]]; rewrite E in *; cbn [beq].
    + rewrite (uni_on g C r 0%nat G Hr ltac:(lia)). destruct (Hu r 0%nat Hr ltac:(lia)) as [-> _]. ring.
    + tauto.
    + ring.
  - destruct (Nat.eqb_spec c (nx k)) as [->|C1]; cbn [andb].
    + destruct K2 as [E|[E|E]]; rewrite E in *; cbn [beq]; [congruence | tauto | ring].
    + rewrite (uni_on g C r (c - 1)%nat G Hr ltac:(lia)), (uni_on g C r c G Hr ltac:(lia)). rewrite (dn_eq k f Hrect r (c - 1)%nat c) by lia. ring.
Qed.

Lemma uni_lateral : sideways_fine k f.
Proof. left. intros r c Hr Hc. destruct (Hu r c Hr Hc) as [_ ->]. destruct (Hu 0%nat c (Nat.le_0_l _) Hc) as [_ ->]. reflexivity. Qed.
Notation Hside := uni_lateral.
Let HnX : (1 <= nx k)%nat := proj1 (proj2 Hw).
Let HlaT : lateral k = Circular := proj2 (proj2 Hknown).
Let HnY : (ny k <> 1)%nat := proj1 Hw.
Lemma uni_calm c : v == 0 -> (c <= nx k)%nat -> speed_n k f 0%nat c == 0.
Proof. intros V Hc. rewrite (vn_low k f HnX HlaT 0%nat c (Nat.le_0_l _)). cbn [row_up]. destruct (Hu (ny k) c (le_n _) Hc) as [_ ->]. destruct (Hu 0%nat c (Nat.le_0_l _) Hc) as [_ ->]. rewrite V. reflexivity. Qed.
Lemma uni_fixed c : ~ free_column k c -> open_ends k u v -> v == 0.
Proof. intros F (_ & _ & O). apply O. destruct (not_free k c F) as [[_ ->]|[_ ->]]; tauto. Qed.

(** ** Saturated *)
Lemma still_sat w x C : psaturated k d w x C -> open_ends k u v -> trunk k = true \/ v == 0 -> forall i, (i < cells k)%nat -> prhs k f d w x i == 0.
Proof.
  intros (S1 & S2 & S3) Hop Htr i Hi. destruct (rc_of k i Hi) as (r & c & Hr & Hc & ->). unfold prhs. rewrite (flat_rc k) by exact Hc.
  assert (M : forall j, (j < cells k)%nat -> mixed k d x j == C) by (intros j Hj; unfold mixed; rewrite cells_eq in Hj; destruct (S1 j Hj) as (-> & -> & _); ring).
  destruct (S1 _ (in_grid k r c Hr Hc)) as (E1 & E2 & E3 & E4 & E5).
  assert (FO : only (forgotten k r) (sideways k f (as_grid k (mixed k d x)) r c) == 0).
  { unfold forgotten. destruct Htr as [->|V]. reflexivity. apply only_0. rewrite (uni_side (as_grid k (mixed k d x)) C r c); try assumption. rewrite V. ring.
    intros r' c' [Hr' Hc']. apply M, rc_lt; assumption. }
  destruct (free_dec k c) as [F|F].
  - rewrite (side_free k f d HnX HlaT Hrect w x r c Hr Hc F), FO. rewrite (uni_brought _ C r c) ; try assumption. 2: intros r' c' [Hr' Hc']; apply M, rc_lt; assumption. 2: apply Hop.
    set (a := dsdn f r c / T k). assert (A : 0 <= a) by (destruct (area_pos k f Hrect r c Hr Hc) as (A & _); pose proof Hw as (_ & _ & _ & HT & _); apply mul_nn; [lra | apply Qlt_le_weak, Qinv_lt_0_compat, HT]).
    assert (ST : settles k f d x r c == a * C) by (unfold settles, cell; rewrite (M _ (rc_lt k r c Hr Hc)); reflexivity).
    assert (UP : uptake k f d w r c == a * C).
    { unfold uptake, cell. fold a. set (j := (r * width k + c)%nat) in *. setoid_replace (w j * implicitness k * Cu d j + (1 - implicitness k) * lw d j * lCu d j) with (implicitness k * (w j * Cu d j) + (1 - implicitness k) * (lw d j * lCu d j)) by ring. rewrite E3, E4. ring. }
    assert (ER : eroded k f d w x r c == a * C).
    { unfold eroded, qmin. assert (0 <= a * mass d (r * width k + c)%nat) by (apply mul_nn; assumption). destruct (Qle_bool_spec (uptake k f d w r c) (available k f d x r c)) as [L|L]. exact UP.
      rewrite UP in L. unfold available in *. fold a in L |- *. rewrite ST in *. unfold cell in *. lra. }
    unfold still. rewrite ER, ST. unfold cell. rewrite E1, E2.
    assert (B : (if Nat.eqb c 0 && beq (offshore k) Flux then dn f r c * u * (offshore_flux k * at_cell k (Cu0 d) r 0 - C) else 0) == 0).
    { destruct (_ && _) eqn:E; [|reflexivity]. apply andb_prop in E. destruct E as [_ E]. pose proof (proj1 (beq_spec _ _) E) as E'. rewrite (S2 E' r Hr). ring. }
    rewrite B. clearbody a. unfold only. destruct (trunk k). ring. ring.
  - pose proof (uni_fixed c F Hop) as V. rewrite (side_fixed k f d Hw Hknown w x r c Hr Hc F).
    assert (V0 := uni_calm c V Hc). assert (VL : speed_n k f (S (ny k)) c == 0).
    { rewrite (vn_high k f HnX HlaT (ny k) c (le_n _)). unfold row_down. rewrite Nat.eqb_refl. destruct (Hu (ny k) c (le_n _) Hc) as [_ ->]. destruct (Hu 0%nat c (Nat.le_0_l _) Hc) as [_ ->]. rewrite V. reflexivity. }
    rewrite (only_0 _ (ds f r c * (speed_n k f (S (ny k)) c * face_n k f d x (S (ny k)) c))) by (rewrite VL; ring). rewrite (only_0 _ (ds f r c * (speed_n k f 0%nat c * face_n k f d x 0%nat c))) by (rewrite V0; ring).
    unfold extra. destruct (trunk k) eqn:E. ring. destruct (S3 eq_refl) as [X1 X2]. destruct (not_free k c F) as [[-> E']|[-> E']]. cbn [Nat.eqb]. rewrite X1 by exact E'. ring.
    destruct (Nat.eqb_spec (nx k) 0); [lia|]. rewrite X2 by exact E'. ring.
Qed.

Variable sp : (nat -> nat -> Q) -> (nat -> Q) -> nat -> Q.
Hypothesis Hsp : exact_solver (number_of_cells k) (pmatrix k f) sp.
Lemma settled w x C : psaturated k d w x C -> open_ends k u v -> trunk k = true \/ v == 0 -> 0 <= C -> 0 <= max_error k -> max_iter k <> 0%nat ->
  exists o, pieter_fraction sp k f d w x = Ok (Some o) /\ converged o = true /\ forall i, (i < number_of_cells k)%nat -> ct o i == C /\ pickup o i == 0 /\ weight o i = w i.
Proof.
  intros Hs Hop Htr HC He Hm. rewrite fraction_ok by assumption. pose proof (still_sat w x C Hs Hop Htr) as Z. pose proof Hs as (S1 & _).
  assert (IM : forall i, (i < cells k)%nat -> improve sp k f d w x i == C).
  { intros i Hi. rewrite (improve_unique sp k f d Hw Hrect Hknown Hside Hsp w x (fun _ => 0)); [| |exact Hi]. rewrite cells_eq in Hi. destruct (S1 i Hi) as (_ & -> & _). ring.
    intros j Hj. rewrite Z by exact Hj. unfold mulv. apply sumn_zero. intros; ring. }
  destruct (ptidy_same k (improve sp k f d w x)) as (z & Ez & Hz). intros i Hi. rewrite IM by exact Hi. exact HC.
  pose proof Hw as (_ & _ & Hdt & HT & _).
  assert (D : forall i, (i < cells k)%nat -> demand k d w z i == 0).
  { intros i Hi. unfold demand. rewrite Hz, IM by exact Hi. rewrite cells_eq in Hi. destruct (S1 i Hi) as (_ & _ & -> & _). field. lra. }
  exists {| ct := z; pickup := demand k d w z; weight := w; converged := true |}. split; [|split; [reflexivity|]].
  - assert (A : anyn (cells k) (short k d w z) = false).
    { destruct (anyn (cells k) (short k d w z)) eqn:A; [|reflexivity]. exfalso. apply anyn_spec in A. destruct A as (i & Hi & A). unfold short in A.
      destruct (Qltb_spec (max_error k) (demand k d w z i - mass d i)) as [L|]; [|discriminate A]. rewrite (D i Hi) in L. rewrite cells_eq in Hi. destruct (S1 i Hi) as (_ & _ & _ & _ & L5). lra. }
    f_equal. destruct (max_iter k - 1)%nat; cbn [piterate]; rewrite Ez, A; reflexivity.
  - intros i Hi. rewrite <- cells_eq in Hi. cbn [ct pickup weight]. split; [|split; [apply D, Hi | reflexivity]]. rewrite Hz by exact Hi. apply IM, Hi.
Qed.
End Uniform.

(** ** Bounded *)
Section Bounded.
Variable sp : (nat -> nat -> Q) -> (nat -> Q) -> nat -> Q.
Variable k : pcfg.
Variable f : flow.
Variable d : input.
Variables u v : Q.
Variables w x : nat -> Q.
Variable M : Q.
Hypothesis Ho : orderly k f d w x.
Hypothesis Hsp : exact_solver (number_of_cells k) (pmatrix k f) sp.
Hypothesis Hu : uniform_wind k f u v.
Hypothesis Hop : open_ends k u v.
Hypothesis Hb : pbounded k d w x M.
Lemma no_more w' x' : (forall i, (i < number_of_cells k)%nat -> w' i * Cu d i <= M /\ x' i <= M) -> forall i, (i < number_of_cells k)%nat -> improve sp k f d w' x' i <= M.
Proof.
  pose proof Ho as (O1 & O2 & O3 & O4 & O5 & O6 & O7 & O8 & O9 & O10 & O11 & O12 & O13). intros HJ i0 Hi0. rewrite <- cells_eq in Hi0.
  pose proof O1 as (HY & HX & Hdt & HT & _). pose proof (proj2 (proj2 O3)) as HlaT. destruct Hb as (B1 & B2 & B3). destruct Hop as (P1 & P2 & P3).
  destruct (weights_exist k f O1 O2 O3 O4) as [wt Hwt]. set (z := improve sp k f d w' x'). enough (0 <= (fun i => M - z i) i0) by (cbv beta in H; lra).
  apply (monotone_partial (cells k) (pmatrix k f) wt (fun i => M - z i) (npos k f O1 O2 O3) Hwt); [|exact Hi0]. clear i0 Hi0. intros i Hi Hneg.
  destruct (rc_of k i Hi) as (r & c & Hr & Hc & ->). set (j := (r * width k + c)%nat) in *. assert (Hj : (j < number_of_cells k)%nat) by (rewrite <- cells_eq; exact Hi).
  destruct (HJ j Hj) as [J1 J2]. destruct (B1 j Hj) as (L1 & _ & _). destruct (free_dec k c) as [F|F].
  - assert (E : mulv (cells k) (pmatrix k f) (fun i => M - z i) j == mulv (cells k) (pmatrix k f) (fun _ => M) j - mulv (cells k) (pmatrix k f) z j).
    { unfold mulv. rewrite <- sumn_minus. apply sumn_ext. intros; ring. }
    rewrite E. unfold j. unfold z at 1. rewrite (row_new sp k f d O1 O2 O3 O4 Hsp O6 w' x' r c Hr Hc F), (forgotten_0 k f d O1 O7 x' r c Hr Hc), (eroded_cases k f d O1 O2 O6 w' x' r c Hr Hc). fold j.
    pose proof (row_free k f HX HlaT O2 HY O4 (fun _ => M) r c Hr Hc F) as RF. fold j in RF. rewrite RF. clear RF.
    pose proof (brought_add k f d HX HlaT O2 (fun _ => 0) (fun _ => M) r c Hr Hc) as B.
    assert (MIX : forall (q : Q) r c, as_grid k (mixed k d (fun _ => q)) r c == q) by (intros q r' c'; unfold as_grid, at_cell; apply (mixed1 k d O6)).
    assert (E0 : brought k f d (as_grid k (mixed k d (fun i => 0 + M))) r c == brought k f d (fun _ _ => M) r c) by (apply brought_ext; try assumption; intros r' c' _; rewrite MIX; ring).
    assert (E1 : brought k f d (as_grid k (mixed k d (fun _ => 0))) r c == brought k f d (fun _ _ => 0) r c) by (apply brought_ext; try assumption; intros r' c' _; apply MIX).
    rewrite E0, E1 in B.
    rewrite (uni_brought k f d u v O1 O2 O3 Hu (fun _ _ => M) M r c) in B; try assumption; try (intros; reflexivity).
    fold (outside k f d r c) in B. unfold cell. set (lin1 := only (lo k c) _) in *. set (lin2 := only (hi k c) _) in *. unfold cell in B. fold lin1 lin2 in B.
    destruct (rates k f O1 O2 r c Hr Hc) as [R1 R2]. destruct (area_pos k f O2 r c Hr Hc) as (_ & Ds & Dn).
    assert (G : (if Nat.eqb c 0 && beq (offshore k) Flux then dn f r c * u * (offshore_flux k * at_cell k (Cu0 d) r 0 - M) else 0) <= 0).
    { destruct (_ && _) eqn:EE; [|lra]. apply andb_prop in EE. destruct EE as [_ EE]. pose proof (proj1 (beq_spec _ _) EE) as E'. specialize (B2 E' r Hr). specialize (P2 E').
      assert (0 <= dn f r c * u * (M - offshore_flux k * at_cell k (Cu0 d) r 0)) by (apply mul_nn; [apply mul_nn; lra | lra]).
      setoid_replace (dn f r c * u * (offshore_flux k * at_cell k (Cu0 d) r 0 - M)) with (- (dn f r c * u * (M - offshore_flux k * at_cell k (Cu0 d) r 0))) by ring. lra. }
    set (gg := if Nat.eqb c 0 && beq (offshore k) Flux then _ else _) in *.
    assert (H1 : 0 <= only (trunk k) (dsdn f r c / dt k * M) - only (trunk k) (dsdn f r c / dt k * lCt d j)).
    { unfold only. destruct (trunk k); [|lra]. assert (0 <= dsdn f r c / dt k * (M - lCt d j)) by (apply mul_nn; lra). lra. }
    assert (H2 : 0 <= dsdn f r c / T k * (M - qmin (w' j * Cu d j) (mass d j + x' j))).
    { apply mul_nn. lra. unfold qmin. destruct (Qle_bool_spec (w' j * Cu d j) (mass d j + x' j)); lra. }
    assert (H3 : 0 <= alone k f (fun _ => M) r c - alone k f x' r c).
    { unfold alone, only, cell. fold j. destruct (Nat.eqb (ny k) 0); [|lra]. pose proof (pos_nn (un f r c)). pose proof (neg_np (un f r c)). rewrite (al1 k O6).
      assert (0 <= ds f r c * (pos (un f r c) - neg (un f r c)) * (1 * (M - x' j))) by (apply mul_nn; [apply mul_nn; lra | lra]). lra. }
    rewrite (al1 k O6) in *. fold j. clearbody lin1 lin2 gg. lra.
  - exfalso. assert (V : v == 0) by (apply P3; destruct (not_free k c F) as [[_ ->]|[_ ->]]; tauto).
    assert (Z : cell k z r c == cell k x' r c + extra k c) by (apply (fixed_kept sp k f d O1 O2 O3 O4 Hsp O6 w' x' c Hc F O7 r Hr), (uni_calm k f u v O1 O3 Hu c V Hc)).
    assert (X : extra k c == 0).
    { unfold extra. destruct (trunk k) eqn:E. reflexivity. destruct (B3 eq_refl) as [X1 X2]. destruct (not_free k c F) as [[-> E']|[-> E']]. apply X1, E'. destruct (Nat.eqb_spec (nx k) 0); [lia|]. apply X2, E'. }
    unfold cell in Z. fold j in Z. lra.
Qed.
Lemma result_bounded : exists o, pieter_fraction sp k f d w x = Ok (Some o) /\ forall i, (i < number_of_cells k)%nat -> 0 <= ct o i <= M.
Proof.
  pose proof Ho as (O1 & O2 & O3 & O4 & O5 & O6 & O7 & O8 & O9 & O10 & O11 & O12 & O13). destruct Hb as (B1 & _).
  destruct (run sp k f d w x Ho Hsp (fun w' x' => forall i, (i < number_of_cells k)%nat -> w' i * Cu d i <= M /\ x' i <= M)) as (o & w' & x' & E & J & W & X & P & _).
  - intros i Hi. destruct (B1 i Hi) as (_ & ? & ?). split; assumption.
  - intros w' x' c W X C J EC A i Hi. rewrite memo_get by (rewrite cells_eq; exact Hi). destruct (reduced_nn k d O1 O11 O9 w' c i Hi (proj1 (W i Hi)) (C i Hi)) as [R _].
    destruct (J i Hi) as [J1 J2]. destruct (O11 i Hi) as (_ & _ & _ & I4 & I5). split.
    + assert (0 <= (w' i - reduced k d w' c i) * Cu d i) by (apply mul_nn; lra). lra.
    + rewrite EC by exact Hi. apply no_more; assumption.
  - exists o. split. exact E. intros i Hi. destruct (P i Hi) as (P1 & P2 & _). split. exact P2. rewrite P1. apply no_more; assumption.
Qed.
End Bounded.

(** ** Any implicitness *)
Lemma qmin_scale a x y : 0 < a -> qmin (a * x) (a * y) == a * qmin x y.
Proof.
  intros A. unfold qmin. destruct (Qle_bool_spec (a * x) (a * y)), (Qle_bool_spec x y); try reflexivity; exfalso.
  - assert (0 < a * (x - y)) by (apply mul_pos; lra). lra.
  - assert (0 <= a * (y - x)) by (apply mul_nn; lra). lra.
Qed.
Lemma qmin_compat a b c e : a == b -> c == e -> qmin a c == qmin b e.
Proof. intros H1 H2. unfold qmin. destruct (Qle_bool_spec a c), (Qle_bool_spec b e); lra. Qed.
Section Any.
Variable sp : (nat -> nat -> Q) -> (nat -> Q) -> nat -> Q.
Variable k : pcfg.
Variable f : flow.
Variable d : input.
Hypothesis Hw : workable k.
Hypothesis Hrect : rectangular k f.
Hypothesis Hknown : known_ends k.
Hypothesis Hside : sideways_fine k f.
Hypothesis Hsp : exact_solver (number_of_cells k) (pmatrix k f) sp.
Hypothesis Htr : trunk k = true.
Variables w x : nat -> Q.
Variables r c : nat.
Hypothesis Hr : (r <= ny k)%nat.
Hypothesis Hc : (c <= nx k)%nat.
Hypothesis F : free_column k c.
Let z := improve sp k f d w x.
Lemma any_law : area f r c * (at_cell k z r c - at_cell k (lCt d) r c) / dt k + alone k f (fun i => z i - x i) r c ==
  area f r c * (given k (alpha k) d w (as_grid k x) r c - weighted (alpha k) (as_grid k z) (as_grid k (lCt d)) r c / T k) + brought k f d (weighted (alpha k) (as_grid k z) (as_grid k (lCt d))) r c.
Proof.
  pose proof (round_law sp k f d Hw Hrect Hknown Hside Hsp w x r c Hr Hc F) as L. cbv zeta in L. fold z in L. unfold forgotten in L. rewrite Htr in L. cbn [negb andb only] in L.
  pose proof Hw as (_ & _ & Hdt & HT & _). destruct (area_pos k f Hrect r c Hr Hc) as (A & _).
  assert (AL : implicitness k = alpha k) by (unfold implicitness; rewrite Htr; reflexivity).
  assert (ER : eroded k f d w x r c == area f r c * given k (alpha k) d w (as_grid k x) r c).
  { unfold eroded, given. change (area f r c) with (dsdn f r c). set (a := dsdn f r c) in *.
    rewrite (qmin_compat _ (a / T k * (alpha k * (at_cell k w r c * at_cell k (Cu d) r c) + (1 - alpha k) * (at_cell k (lw d) r c * at_cell k (lCu d) r c))) _ (a / T k * (at_cell k (mass d) r c + weighted (alpha k) (as_grid k x) (as_grid k (lCt d)) r c))).
    rewrite qmin_scale. field. lra. apply mul_pos. exact A. apply Qinv_lt_0_compat, HT.
    unfold uptake. fold a. rewrite AL. unfold cell, at_cell, width. ring.
    unfold available, settles. fold a. unfold cell, mixed, weighted, as_grid, at_cell, width. rewrite AL. ring. }
  assert (SE : settles k f d z r c == area f r c * (weighted (alpha k) (as_grid k z) (as_grid k (lCt d)) r c / T k)).
  { unfold settles, cell, mixed, weighted, as_grid, at_cell, width. rewrite AL. change (area f r c) with (dsdn f r c). field. lra. }
  assert (BR : brought k f d (as_grid k (mixed k d z)) r c == brought k f d (weighted (alpha k) (as_grid k z) (as_grid k (lCt d))) r c).
  { apply brought_ext; try assumption. intros r' c' _. unfold as_grid, mixed, weighted, at_cell. rewrite AL. reflexivity. }
  rewrite ER, SE, BR in L. set (br := brought _ _ _ _ _ _) in *. unfold cell in L. change (z (r * width k + c)%nat) with (at_cell k z r c) in L. change (lCt d (r * width k + c)) with (at_cell k (lCt d) r c) in L.
  setoid_replace (area f r c * (at_cell k z r c - at_cell k (lCt d) r c) / dt k) with (dsdn f r c / dt k * (at_cell k z r c - at_cell k (lCt d) r c)) by (unfold area, dsdn; field; lra).
  rewrite L. ring.
Qed.
Lemma any_cell : no_side_wind_in_1d k f -> area f r c * (at_cell k z r c - at_cell k (lCt d) r c) / dt k ==
  area f r c * (given k (alpha k) d w (as_grid k x) r c - weighted (alpha k) (as_grid k z) (as_grid k (lCt d)) r c / T k) + brought k f d (weighted (alpha k) (as_grid k z) (as_grid k (lCt d))) r c.
Proof.
  intros H1. rewrite <- any_law. unfold alone. destruct (Nat.eqb_spec (ny k) 0) as [Hz|]; cbn [only]; [|ring]. assert (r = 0%nat) by lia. subst r. rewrite (H1 Hz c Hc). unfold pos, neg. ring.
Qed.
Lemma any_oblique : ny k = 0%nat -> area f r c * (at_cell k z r c - at_cell k (lCt d) r c) / dt k + ds f r c * (qabs (un f r c) * (alpha k * (at_cell k z r c - at_cell k x r c))) ==
  area f r c * (given k (alpha k) d w (as_grid k x) r c - weighted (alpha k) (as_grid k z) (as_grid k (lCt d)) r c / T k) + brought k f d (weighted (alpha k) (as_grid k z) (as_grid k (lCt d))) r c.
Proof.
  intros Hz. rewrite <- any_law. unfold alone. rewrite Hz. cbn [Nat.eqb only]. assert (AL : implicitness k = alpha k) by (unfold implicitness; rewrite Htr; reflexivity). rewrite AL.
  assert (P : pos (un f r c) - neg (un f r c) == qabs (un f r c)).
  { unfold pos, neg, qabs. destruct (upw_cases (un f r c)) as [[U ->]|[U ->]]. all: destruct (Qle_bool_spec 0 (un f r c)); lra. }
  rewrite P. unfold cell, at_cell, width. ring.
Qed.
End Any.

(** ** One row, steady, oblique wind *)
Lemma oblique_round sp (k : pcfg) f d w x u v n C c : oblique k f d w x u v n C c -> exact_solver (number_of_cells k) (pmatrix k f) sp ->
  forall i, (i < cells k)%nat -> improve sp k f d w x i == (n * C + 2 * (v * T k) * c) / (n + v * T k).
Proof.
  intros (Hw & Hrect & Hknown & Htr & Hny & Hoff & Hon & Hm & He & Hu & Hn & Hv & HC & Hx) Hsp i0 Hi0. pose proof Hw as (HY & HX & Hdt & HT & _). pose proof (proj2 (proj2 Hknown)) as HlaT. pose proof (uni_lateral k f u v Hu) as Hside.
  assert (Himp : fully_implicit k) by (intros E; congruence).
  assert (Hn0 : 0 < n). { rewrite <- (Hn 0%nat (Nat.le_0_l _)). destruct (Hrect 0%nat 0%nat (Nat.le_0_l _) (Nat.le_0_l _)) as (_ & _ & D & _). exact D. }
  assert (V : 0 < v). { destruct (Qlt_le_dec 0 v); [assumption|]. exfalso. assert (0 <= (- v) * T k) by (apply mul_nn; lra). lra. }
  assert (VT : 0 < v * T k) by (apply mul_pos; assumption). set (q := (n * C + 2 * (v * T k) * c) / (n + v * T k) - c).
  assert (Q1 : (n + v * T k) * q == n * (C - c) + v * T k * c) by (unfold q; field; lra).
  rewrite (improve_unique sp k f d Hw Hrect Hknown Hside Hsp w x (fun _ => q)); [| |exact Hi0].
  { rewrite cells_eq in Hi0. destruct (Hx i0 Hi0) as (_ & -> & _). unfold q. ring. }
  clear i0 Hi0. intros i Hi. destruct (rc_of k i Hi) as (r & j & Hr & Hj & ->). assert (r = 0%nat) by lia. subst r.
  assert (F : free_column k j) by (split; intros [_ E]; congruence).
  unfold prhs. rewrite (flat_rc k) by exact Hj. rewrite (side_free k f d HX HlaT Hrect w x 0%nat j Hr Hj F). rewrite (row_free k f HX HlaT Hrect HY Hside (fun _ => q) 0%nat j Hr Hj F).
  pose proof (brought_add k f d HX HlaT Hrect (fun _ => 0) (fun _ => q) 0%nat j Hr Hj) as B.
  assert (BZ : forall g C', (forall r c, within k r c -> g r c == C') -> brought k f d g 0%nat j == 0).
  { intros g C' G. rewrite (uni_brought k f d u v Hw Hrect Hknown Hu g C' 0%nat j G Hr Hj F) by congruence. rewrite Hoff. cbn [beq]. rewrite andb_false_r. reflexivity. }
  rewrite !(BZ (as_grid k (mixed k d (fun i => 0 + q))) q) in B by (intros; unfold as_grid, at_cell; rewrite (mixed1 k d Himp); ring).
  rewrite !(BZ (as_grid k (mixed k d (fun _ => 0))) 0) in B by (intros; unfold as_grid, at_cell; apply (mixed1 k d Himp)).
  assert (MX : forall r c', within k r c' -> as_grid k (mixed k d x) r c' == c).
  { intros r' c' [Hr' Hc']. unfold as_grid, at_cell. rewrite (mixed1 k d Himp). apply (Hx _ (in_grid k r' c' Hr' Hc')). }
  rewrite (BZ _ c MX). set (lin1 := only (lo k j) _) in *. set (lin2 := only (hi k j) _) in *.
  unfold still. rewrite (eroded_cases k f d Hw Hrect Himp w x 0%nat j Hr Hj), (settles1 k f d Himp). destruct (Hx _ (in_grid k 0%nat j Hr Hj)) as (X1 & X2 & X3).
  rewrite (qmin_compat _ C _ (mass d (0 * width k + j) + c)) by (rewrite ?X1, ?X2; reflexivity). unfold forgotten. rewrite Htr, Hny. cbn [negb andb Nat.eqb only].
  rewrite (uni_side k f u v Hrect Hu _ c 0%nat j MX Hr Hj). unfold alone. rewrite Hny. cbn [Nat.eqb only].
  assert (QM : qmin C (mass d (0 * width k + j) + c) == C) by (unfold qmin; destruct (Qle_bool_spec C (mass d (0 * width k + j) + c)); lra). rewrite QM. unfold cell in *. rewrite X2.
  assert (P : pos (un f 0%nat j) - neg (un f 0%nat j) == v).
  { unfold pos, neg. destruct (Hu 0%nat j Hr Hj) as [_ U]. destruct (upw_cases (un f 0%nat j)) as [[U' ->]|[U' ->]]; rewrite U in *; lra. }
  rewrite P. rewrite (al1 k Himp) in *. unfold dsdn. rewrite (Hn j Hj).
  assert (S0 : forall L, 0 == 0 + lin1 - lin2 + L -> L == lin2 - lin1) by (intros; lra).
  match goal with |- 0 + _ - (lin1 - lin2 + ?s1 - ?s2) + _ == _ => assert (LL : lin1 - lin2 + s1 - s2 == 0) by (clearbody lin1 lin2; lra); rewrite LL end.
  set (D := ds f 0%nat j).
  assert (G : D / T k * ((n + v * T k) * q) == D / T k * (n * (C - c) + v * T k * c)) by (rewrite Q1; reflexivity).
  assert (G1 : D / T k * ((n + v * T k) * q) == D * n / T k * (1 * q) + D * v * (1 * q)) by (field; lra).
  assert (G2 : D / T k * (n * (C - c) + v * T k * c) == D * n / T k * C - D * n / T k * c + D * (v * c)) by (field; lra). lra.
Qed.
Lemma oblique_grows sp (k : pcfg) f d w x u v n C c : oblique k f d w x u v n C c -> exact_solver (number_of_cells k) (pmatrix k f) sp ->
  exists o, pieter_fraction sp k f d w x = Ok (Some o) /\ converged o = true /\ forall i, (i < number_of_cells k)%nat -> c + n * C / (n + v * T k) <= ct o i /\ weight o i = w i.
Proof.
  intros H Hsp. pose proof (oblique_round sp k f d w x u v n C c H Hsp) as R. destruct H as (Hw & Hrect & Hknown & Htr & Hny & Hoff & Hon & Hm & He & Hu & Hn & Hv & HC & Hx).
  pose proof Hw as (HY & HX & Hdt & HT & _). assert (Hn0 : 0 < n). { rewrite <- (Hn 0%nat (Nat.le_0_l _)). destruct (Hrect 0%nat 0%nat (Nat.le_0_l _) (Nat.le_0_l _)) as (_ & _ & D & _). exact D. }
  rewrite fraction_ok by assumption. set (Z := (n * C + 2 * (v * T k) * c) / (n + v * T k)) in *.
  assert (G : c + n * C / (n + v * T k) <= Z).
  { assert (0 <= (v * T k - n) * c / (n + v * T k)) by (apply mul_nn; [apply mul_nn; lra | apply Qlt_le_weak, Qinv_lt_0_compat; lra]).
    setoid_replace Z with (c + n * C / (n + v * T k) + (v * T k - n) * c / (n + v * T k)) by (unfold Z; field; lra). lra. }
  assert (G0 : 0 <= n * C / (n + v * T k)) by (apply mul_nn; [apply mul_nn; lra | apply Qlt_le_weak, Qinv_lt_0_compat; lra]).
  destruct (ptidy_same k (improve sp k f d w x)) as (z & Ez & Hz). intros i Hi. rewrite R by exact Hi. lra.
  assert (A : anyn (cells k) (short k d w z) = false).
  { destruct (anyn (cells k) (short k d w z)) eqn:A; [|reflexivity]. exfalso. apply anyn_spec in A. destruct A as (i & Hi & A). unfold short in A.
    destruct (Qltb_spec (max_error k) (demand k d w z i - mass d i)) as [L|]; [|discriminate A]. unfold demand in L. rewrite Hz, R in L by exact Hi. rewrite cells_eq in Hi. destruct (Hx i Hi) as (X1 & _ & X3). rewrite X1 in L.
    assert (0 <= (Z - C) * (/ T k * dt k)) by (apply mul_nn; [lra | apply mul_nn; [apply Qlt_le_weak, Qinv_lt_0_compat, HT | lra]]).
    setoid_replace ((C - Z) / T k * dt k) with (- ((Z - C) * (/ T k * dt k))) in L by (field; lra). lra. }
  exists {| ct := z; pickup := demand k d w z; weight := w; converged := true |}. split; [|split; [reflexivity|]].
  - f_equal. destruct (max_iter k - 1)%nat; cbn [piterate]; rewrite Ez, A; reflexivity.
  - intros i Hi. rewrite <- cells_eq in Hi. cbn [ct weight]. split; [|reflexivity]. rewrite Hz, R by exact Hi. exact G.
Qed.

(** ** Prescribed ends *)
Lemma calm_vn (k : pcfg) f c : workable k -> known_ends k -> no_side_wind k f -> (c <= nx k)%nat -> speed_n k f 0%nat c == 0.
Proof.
  intros Hw Hk H Hc. pose proof Hw as (_ & HX & _). pose proof (proj2 (proj2 Hk)) as HlaT. rewrite (vn_low k f HX HlaT 0%nat c (Nat.le_0_l _)). cbn [row_up].
  rewrite (H (ny k) c), (H 0%nat c) by (split; lia). reflexivity.
Qed.
Lemma result_ends sp (k : pcfg) f d w x : orderly k f d w x -> exact_solver (number_of_cells k) (pmatrix k f) sp -> no_side_wind k f ->
  exists o n, pieter_fraction sp k f d w x = Ok (Some o) /\ (1 <= n)%nat /\ forall r c, (r <= ny k)%nat -> (c <= nx k)%nat -> ~ free_column k c ->
    at_cell k (ct o) r c == at_cell k x r c + inject_Z (Z.of_nat n) * extra k c.
Proof.
  intros Ho Hsp Hz. pose proof Ho as (O1 & O2 & O3 & O4 & O5 & O6 & O7 & O8 & O9 & O10 & O11 & O12 & O13).
  assert (K : forall w' x' r c, (r <= ny k)%nat -> (c <= nx k)%nat -> ~ free_column k c -> improve sp k f d w' x' (r * width k + c)%nat == x' (r * width k + c)%nat + extra k c).
  { intros w' x' r c Hr Hc F. apply (fixed_kept sp k f d O1 O2 O3 O4 Hsp O6 w' x' c Hc F O7 r Hr), calm_vn; assumption. }
  destruct (run sp k f d w x Ho Hsp (fun _ x' => exists n : nat, forall r c, (r <= ny k)%nat -> (c <= nx k)%nat -> ~ free_column k c -> at_cell k x' r c == at_cell k x r c + inject_Z (Z.of_nat n) * extra k c)) as (o & w' & x' & E & (n & J) & _ & _ & P & _).
  - exists 0%nat. intros. change (inject_Z (Z.of_nat 0)) with 0. ring.
  - intros w' x' c0 _ _ _ (n & J) Hc0 _. exists (S n). intros r c Hr Hc F. unfold at_cell in *. change (S (nx k)) with (width k) in *. rewrite (Hc0 _ (in_grid k r c Hr Hc)). rewrite K by assumption. rewrite J by assumption.
    rewrite Nat2Z.inj_succ. unfold Z.succ. rewrite inject_Z_plus. change (inject_Z 1) with 1. ring.
  - exists o, (S n). split. exact E. split. lia. intros r c Hr Hc F. unfold at_cell in *. change (S (nx k)) with (width k) in *. destruct (P _ (in_grid k r c Hr Hc)) as (-> & _). rewrite K by assumption. rewrite J by assumption.
    rewrite Nat2Z.inj_succ. unfold Z.succ. rewrite inject_Z_plus. change (inject_Z 1) with 1. ring.
Qed.
