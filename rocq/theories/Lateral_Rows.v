(** Rows that are alike stay alike between 'gradient' borders, with wind towards the higher rows. *)
From Coq Require Import QArith Lia Lqa List Bool Arith Setoid.
From Verif Require Import Base Num Utils_Model Solver_Model Solver_Spec Linear Solver_Proofs Solver_Iter Solver_Balance Pieter_Model Pieter_Spec Pieter_Proofs Pieter_Coefs Pieter_Balance Pieter_Unique Pieter_Whole Pieter_Outcome Sym_Proofs Lateral_Spec Lateral_Proofs.
Import ListNotations.
Open Scope Q_scope.

Section Rows.
Variable k : pcfg.
Variable f : flow.
Variable d : input.
Variables u v : Q.
Hypothesis Hw : workable k.
Hypothesis Hrect : rectangular k f.
Hypothesis Hb : known_borders k.
Hypothesis Hu : uniform_wind k f u v.
Hypothesis Hv : 0 <= v.
Hypothesis HG : lateral k = Gradient.
Hypothesis Hc0 : offshore k = Constant \/ onshore k = Constant -> v == 0.
Notation al := (implicitness k).
Notation co := (coefs k f).
Let Hx : (1 <= nx k)%nat := proj1 (proj2 Hw).
Let Hy : (2 <= ny k)%nat.
Proof. pose proof Hb as (_ & _ & _ & G). specialize (G HG). pose proof Hw as (Y & _). lia. Qed.
Lemma r_us r j : (r <= ny k)%nat -> (j <= S (nx k))%nat -> speed_s k f r j == u.
Proof. intros. apply (b_us k f u v Hw Hu); assumption. Qed.
Lemma r_un j c : (j <= S (ny k))%nat -> (c <= nx k)%nat -> speed_n k f j c == v.
Proof. intros. apply (b_un k f u v Hw Hu); assumption. Qed.
Lemma r_ups r j : (r <= ny k)%nat -> (j <= S (nx k))%nat -> upw (speed_s k f r j) = upw u.
Proof. intros. apply upw_compat, r_us; assumption. Qed.
Lemma r_upn j c : (j <= S (ny k))%nat -> (c <= nx k)%nat -> upw (speed_n k f j c) = 1.
Proof. intros. rewrite (upw_compat _ v) by (apply r_un; assumption). destruct (upw_cases v) as [[_ ->]|[L _]]; [reflexivity | lra]. Qed.
Definition n0 := dn f 0%nat 0%nat.
Lemma r_dn r c : (r <= ny k)%nat -> (c <= nx k)%nat -> dn f r c == n0.
Proof. intros Hr Hc. apply (Hrect r c Hr Hc). Qed.
Lemma r_ds r c : (r <= ny k)%nat -> (c <= nx k)%nat -> ds f r c == ds f 0%nat c.
Proof. intros Hr Hc. apply (Hrect r c Hr Hc). Qed.
Lemma r_area r c : (r <= ny k)%nat -> (c <= nx k)%nat -> dsdn f r c == dsdn f 0%nat c.
Proof. intros Hr Hc. unfold dsdn. rewrite (r_ds r c), (r_dn r c), (r_dn 0 c) by lia. reflexivity. Qed.

(** The coefficients without the wind along the coast. *)
Definition ended (r c : nat) : coef := with_onshore k f r c (with_offshore k f r c (inner k f r c)).
Definition drift (r c : nat) : Q := only (Nat.ltb r (ny k)) (ds f 0%nat c * v * al).
Definition arrive (r c : nat) : Q := only (Nat.leb 1 r) (ds f 0%nat c * v * al).
Definition end_a0 (c : nat) : Q :=
  only (trunk k) (dsdn f 0 c / dt k) + dsdn f 0 c / T k * al - only (Nat.leb 1 c) (n0 * u * (1 - upw u) * al) + only (Nat.ltb c (nx k)) (n0 * u * upw u * al).
Lemma inner_rows r c : (r <= ny k)%nat -> (c <= nx k)%nat ->
  a0 (inner k f r c) == end_a0 c + drift r c /\ amx (inner k f r c) == - arrive r c /\ apx (inner k f r c) == 0 /\
  am1 (inner k f r c) == only (Nat.leb 1 c) (- (n0 * u * upw u * al)) /\ ap1 (inner k f r c) == only (Nat.ltb c (nx k)) (n0 * u * (1 - upw u) * al).
Proof.
  intros Hr Hc. unfold inner, drift, arrive, end_a0. cbv zeta. cbn [a0 am1 ap1 amx apx].
  rewrite (r_ups r c), (r_ups r (S c)), (r_upn r c), (r_upn (S r) c) by lia.
  rewrite (r_us r c), (r_us r (S c)), (r_un r c), (r_un (S r) c), (r_dn r c), (r_ds r c), (r_area r c) by lia.
  unfold only. repeat split; destruct (Nat.leb 1 r), (Nat.ltb r (ny k)), (trunk k), (Nat.leb 1 c), (Nat.ltb c (nx k)); ring.
Qed.
Lemma ended_rows r c : (r <= ny k)%nat -> (c <= nx k)%nat ->
  a0 (ended r c) - drift r c == a0 (ended 0 c) - drift 0 c /\ amx (ended r c) == - arrive r c /\ apx (ended r c) == 0 /\ am1 (ended r c) == am1 (ended 0 c) /\ ap1 (ended r c) == ap1 (ended 0 c).
Proof.
  intros Hr Hc. destruct (inner_rows r c Hr Hc) as (I1 & I2 & I3 & I4 & I5). destruct (inner_rows 0 c ltac:(lia) Hc) as (J1 & J2 & J3 & J4 & J5).
  assert (Z : v == 0 -> drift r c == 0 /\ arrive r c == 0 /\ drift 0 c == 0) by (intros V; unfold drift, arrive; repeat split; apply only_0; rewrite V; ring).
  pose proof Hb as (K1 & K2 & _). unfold ended, with_onshore, with_offshore. destruct (Nat.eqb_spec c 0) as [->|C0].
  - destruct (Nat.eqb_spec 0 (nx k)); [lia|]. destruct K1 as [E|[E|E]]; rewrite E in *; cbn [a0 am1 ap1 amx apx].
    + rewrite I1, I2, I3, I4, I5, J1, J4, J5. repeat split; ring.
    + destruct (Z (Hc0 ltac:(tauto))) as (Z1 & Z2 & Z3). unfold fixed. cbn [a0 am1 ap1 amx apx]. rewrite Z1, Z2, Z3. repeat split; ring.
    + cbv zeta. rewrite I1, I2, I3, I4, I5, J1, J4, J5. rewrite (r_ups r 1), (r_ups 0 1) by lia. rewrite (r_us r 1), (r_us 0 1), (r_dn r 0), (r_dn 0 0) by lia. repeat split; ring.
  - destruct (Nat.eqb_spec c (nx k)) as [->|C1]; [destruct K2 as [E|[E|E]]; rewrite E in *|]; cbn [a0 am1 ap1 amx apx].
    + rewrite I1, I2, I3, I4, I5, J1, J4, J5. repeat split; ring.
    + destruct (Z (Hc0 ltac:(tauto))) as (Z1 & Z2 & Z3). unfold fixed. cbn [a0 am1 ap1 amx apx]. rewrite Z1, Z2, Z3. repeat split; ring.
    + cbv zeta. rewrite I1, I2, I3, I4, I5, J1, J4, J5. rewrite (r_ups r (nx k)), (r_ups 0 (nx k)) by lia. rewrite (r_us r (nx k)), (r_us 0 (nx k)), (r_dn r (nx k)), (r_dn 0 (nx k)) by lia. repeat split; ring.
    + rewrite I1, I2, I3, I4, I5, J1, J4, J5. repeat split; ring.
Qed.
(** All coefficients: the first row has no neighbour, and the sum over the rows is everywhere the same. *)
Lemma co_rows r c : (r <= ny k)%nat -> (c <= nx k)%nat ->
  a0 (co r c) + amx (co r c) == a0 (co 0 c) /\ apx (co r c) == 0 /\ am1 (co r c) == am1 (co 0 c) /\ ap1 (co r c) == ap1 (co 0 c) /\ amx (co 0 c) == 0.
Proof.
  intros Hr Hc. destruct (ended_rows r c Hr Hc) as (I1 & I2 & I3 & I4 & I5). destruct (ended_rows 0 c ltac:(lia) Hc) as (_ & J2 & _).
  assert (E0 : a0 (co 0 c) == a0 (ended 0 c) - drift 0 c /\ am1 (co 0 c) == am1 (ended 0 c) /\ ap1 (co 0 c) == ap1 (ended 0 c) /\ amx (co 0 c) == 0 /\ apx (co 0 c) == 0).
  { unfold coefs. fold (ended 0 c). unfold with_last, with_first. rewrite HG. destruct (Nat.eqb_spec 0 (ny k)); [lia|]. cbn [Nat.eqb]. cbv zeta. cbn [a0 am1 ap1 amx apx]. destruct (ended_rows 0 c ltac:(lia) Hc) as (_ & _ & J3 & _).
    rewrite (r_upn 1 c), (r_un 1 c), J2, J3 by lia. unfold drift, arrive. destruct (Nat.ltb_spec 0 (ny k)); [|lia]. cbn [Nat.leb only]. repeat split; ring. }
  destruct E0 as (E1 & E2 & E3 & E4 & E5). rewrite E1, E2, E3, E4. destruct (Nat.eq_dec r 0) as [->|R0].
  - rewrite E1, E2, E3, E4, E5. repeat split; ring.
  - unfold coefs. fold (ended r c). unfold with_last, with_first. rewrite HG. destruct (Nat.eqb_spec r 0); [lia|]. unfold drift in I1 at 1. unfold arrive in I2. destruct (Nat.leb_spec 1 r); [|lia]. destruct (Nat.eqb_spec r (ny k)) as [->|R1].
    + cbv zeta. cbn [a0 am1 ap1 amx apx]. destruct (Nat.ltb_spec (ny k) (ny k)); [lia|]. change (only false (ds f 0%nat c * v * al)) with 0 in I1. change (only true (ds f 0%nat c * v * al)) with (ds f 0%nat c * v * al) in I2.
      rewrite (r_upn (ny k) c), (r_un (ny k) c), (r_ds (ny k) c), I2, I3, I4, I5, <- I1 by lia. repeat split; ring.
    + destruct (Nat.ltb_spec r (ny k)); [|lia]. change (only true (ds f 0%nat c * v * al)) with (ds f 0%nat c * v * al) in I1, I2. rewrite I2, I3, I4, I5, <- I1. repeat split; ring.
Qed.

(** ** The right hand side *)
Definition level (g : nat -> Q) : Prop := forall r c, (r <= ny k)%nat -> (c <= nx k)%nat -> cell k g r c == cell k g 0 c.
Hypothesis D1 : level (lCt d).
Hypothesis D2 : level (Cu d).
Hypothesis D3 : level (Cu0 d).
Hypothesis D4 : level (lCu d).
Hypothesis D5 : level (lw d).
Hypothesis D6 : level (mass d).
Lemma mixed_level x : level x -> level (mixed k d x).
Proof. intros X r c Hr Hc. pose proof (X r c Hr Hc) as A. pose proof (D1 r c Hr Hc) as B. unfold cell, mixed in *. rewrite A, B. reflexivity. Qed.
Lemma faces_level x r j : level x -> (r <= ny k)%nat -> (j <= S (nx k))%nat -> face_s k f d x r j == face_s k f d x 0 j.
Proof.
  intros X Hr Hj. unfold face_s. destruct (Nat.eqb_spec j 0); [reflexivity|]. destruct (Nat.eqb_spec j (S (nx k))); [reflexivity|]. cbn [orb]. cbv zeta. rewrite (r_ups r j), (r_ups 0 j) by lia.
  rewrite (mixed_level x X r (j - 1)%nat), (mixed_level x X r j) by lia. reflexivity.
Qed.
Lemma facen_level x j c : level x -> (1 <= j <= ny k)%nat -> (c <= nx k)%nat -> face_n k f d x j c == cell k (mixed k d x) 0 c.
Proof.
  intros X Hj Hc. unfold face_n. cbv zeta. destruct (Nat.eqb_spec j 0); [lia|]. destruct (Nat.eqb_spec j (S (ny k))); [lia|]. cbn [orb]. rewrite r_upn by lia.
  rewrite (mixed_level x X (j - 1)%nat c), (mixed_level x X j c) by lia. ring.
Qed.
Lemma eroded_level w x r c : level w -> level x -> (r <= ny k)%nat -> (c <= nx k)%nat -> eroded k f d w x r c - settles k f d x r c == eroded k f d w x 0 c - settles k f d x 0 c.
Proof.
  intros W X Hr Hc. assert (S : settles k f d x r c == settles k f d x 0 c) by (unfold settles; rewrite (r_area r c), (mixed_level x X r c) by lia; reflexivity). rewrite S. unfold Qminus. apply Qplus_comp; [|reflexivity].
  unfold eroded. apply qmin_compat.
  - unfold uptake. rewrite (r_area r c), (W r c), (D2 r c), (D5 r c), (D4 r c) by lia. reflexivity.
  - unfold available. rewrite S, (r_area r c), (D6 r c) by lia. reflexivity.
Qed.
Definition calm (w x : nat -> Q) (c : nat) : Q :=
  - only (trunk k) (dsdn f 0 c / dt k * (cell k x 0 c - cell k (lCt d) 0 c)) + (eroded k f d w x 0 c - settles k f d x 0 c)
  + only (Nat.leb 1 c) (n0 * u * face_s k f d x 0 c) - only (Nat.ltb c (nx k)) (n0 * u * face_s k f d x 0 (S c)).
Definition blow (x : nat -> Q) (c : nat) : Q := ds f 0%nat c * v * cell k (mixed k d x) 0 c.
Lemma residual_level w x r c : level w -> level x -> (r <= ny k)%nat -> (c <= nx k)%nat -> residual k f d w x r c == calm w x c + only (Nat.leb 1 r) (blow x c) - only (Nat.ltb r (ny k)) (blow x c).
Proof.
  intros W X Hr Hc. unfold residual, calm. rewrite (eroded_level w x r c W X Hr Hc), (r_area r c), (X r c), (D1 r c), (r_us r c), (r_us r (S c)), (r_un r c), (r_un (S r) c), (r_dn r c), (r_ds r c), (faces_level x r c X), (faces_level x r (S c) X) by lia.
  unfold blow, only. destruct (Nat.leb_spec 1 r); destruct (Nat.ltb_spec r (ny k)); rewrite ?(facen_level x r c X), ?(facen_level x (S r) c X) by lia; destruct (trunk k), (Nat.leb 1 c), (Nat.ltb c (nx k)); ring.
Qed.
Definition quiet (w x : nat -> Q) (c : nat) : Q := onshore_side k f d x 0 c (offshore_side k f d x 0 c (calm w x c)).
Lemma ends_level w x r c : level w -> level x -> (r <= ny k)%nat -> (c <= nx k)%nat ->
  onshore_side k f d x r c (offshore_side k f d x r c (residual k f d w x r c)) == quiet w x c + only (Nat.leb 1 r) (blow x c) - only (Nat.ltb r (ny k)) (blow x c).
Proof.
  intros W X Hr Hc. pose proof (residual_level w x r c W X Hr Hc) as R. pose proof Hb as (K1 & K2 & _). unfold quiet.
  assert (Z : v == 0 -> forall q, q == q + only (Nat.leb 1 r) (blow x c) - only (Nat.ltb r (ny k)) (blow x c)) by (intros V q; rewrite !only_0 by (unfold blow; rewrite V; ring); ring).
  unfold onshore_side, offshore_side. destruct (Nat.eqb_spec c 0) as [->|C0].
  - destruct (Nat.eqb_spec 0 (nx k)); [lia|]. destruct K1 as [E|[E|E]]; rewrite E in *.
    + rewrite R, (r_dn r 0), (r_dn 0 0), (r_us r 0), (r_us 0 0), (D3 r 0%nat) by lia. ring.
    + apply Z, Hc0. tauto.
    + rewrite R, (r_dn r 1), (r_dn 0 1), (r_us r 1), (r_us 0 1), (faces_level x r 1 X) by lia. ring.
  - destruct (Nat.eqb_spec c (nx k)) as [->|C1].
    + destruct K2 as [E|[E|E]]; rewrite E in *.
      * rewrite R, (r_dn r (nx k)), (r_dn 0 (nx k)), (r_us r (S (nx k))), (r_us 0 (S (nx k))), (D3 r (nx k)) by lia. ring.
      * apply Z, Hc0. tauto.
      * rewrite R, (r_dn r (nx k - 1)), (r_dn 0 (nx k - 1)), (r_us r (nx k)), (r_us 0 (nx k)), (faces_level x r (nx k) X) by lia. ring.
    + exact R.
Qed.
Lemma side_level w x r c : level w -> level x -> (r <= ny k)%nat -> (c <= nx k)%nat -> side k f d w x r c == quiet w x c.
Proof.
  intros W X Hr Hc. pose proof (ends_level w x r c W X Hr Hc) as Y. unfold side. set (y := onshore_side _ _ _ _ _ _ _) in *. clearbody y. unfold first_side, last_side. rewrite HG.
  destruct (Nat.eqb_spec r 0) as [->|R0].
  - destruct (Nat.eqb_spec 0 (ny k)); [lia|]. destruct (Nat.ltb_spec 0 (ny k)); [|lia]. cbn [Nat.leb only] in Y. rewrite Y, (r_ds 1 c), (r_un 1 c), (facen_level x 1 c X) by lia. unfold blow. ring.
  - destruct (Nat.leb_spec 1 r); [|lia]. destruct (Nat.eqb_spec r (ny k)) as [->|R1].
    + destruct (Nat.ltb_spec (ny k) (ny k)); [lia|]. cbn [only] in Y. rewrite Y, (r_ds (ny k - 1) c), (r_un (ny k) c), (facen_level x (ny k) c X) by lia. unfold blow. ring.
    + destruct (Nat.ltb_spec r (ny k)); [|lia]. cbn [only] in Y. rewrite Y. ring.
Qed.

(** ** The increments *)
Variable sp : (nat -> nat -> Q) -> (nat -> Q) -> nat -> Q.
Hypothesis Hsp : solvable sp (number_of_cells k) (pmatrix k f).
Lemma inc_level w x : level w -> level x -> level (sp (pmatrix k f) (prhs k f d w x)).
Proof.
  intros W X. set (y := sp (pmatrix k f) (prhs k f d w x)). destruct (Hsp (prhs k f d w x)) as [Y U]. fold y in Y, U.
  set (z := fun i => cell k y 0 (i mod width k)).
  assert (Zc : forall r c, (c <= nx k)%nat -> cell k z r c = cell k y 0 c).
  { intros r c Hc. unfold z. unfold cell at 1. rewrite Nat.add_comm, Nat.mod_add, Nat.mod_small by (unfold width; lia). reflexivity. }
  assert (S : is_solution (number_of_cells k) (pmatrix k f) (prhs k f d w x) z).
  { apply solves_iff. intros i Hi. rewrite <- cells_eq in *. destruct (rc_of k i Hi) as (r & c & Hr & Hc & ->). rewrite (prow k f ltac:(lia) Hx z r c Hr Hc). unfold prhs. rewrite (flat_rc k) by exact Hc. rewrite (side_level w x r c W X Hr Hc).
    assert (Y0 := proj2 (solves_iff _ _ _ _) Y (0 * width k + c)%nat). specialize (Y0 (rc_lt k 0 c ltac:(lia) Hc)). rewrite (prow k f ltac:(lia) Hx y 0 c ltac:(lia) Hc) in Y0. unfold prhs in Y0. rewrite (flat_rc k) in Y0 by exact Hc. rewrite (side_level w x 0 c W X ltac:(lia) Hc) in Y0. rewrite <- Y0.
    destruct (co_rows r c Hr Hc) as (C1 & _ & C3 & C4 & C5). destruct (Nat.eqb_spec (ny k) 0); [lia|].
    assert (N : (next_row k r <= ny k)%nat) by (unfold next_row; destruct (Nat.eqb_spec r (ny k)); lia). assert (N0 : (next_row k 0 <= ny k)%nat) by (unfold next_row; destruct (Nat.eqb_spec 0 (ny k)); lia).
    destruct (co_rows _ c N Hc) as (_ & C2 & _). destruct (co_rows _ c N0 Hc) as (_ & C2' & _). rewrite C2, C2', C3, C4, C5, <- C1. rewrite (Zc r (c - 1)%nat), (Zc r c), (Zc (prev_row k r) c), (Zc (next_row k r) c) by lia.
    destruct (Nat.eq_dec c (nx k)) as [->|Hn].
    - rewrite (ap1_last k f ltac:(lia) Hx 0). ring.
    - rewrite (Zc r (S c)) by lia. ring. }
  intros r c Hr Hc. assert (A := U z S _ (in_grid k r c Hr Hc)). assert (B := U z S _ (in_grid k 0 c ltac:(lia) Hc)). unfold cell in *. rewrite <- A, <- B. pose proof (Zc r c Hc) as Z1. pose proof (Zc 0%nat c Hc) as Z2. unfold cell in Z1, Z2. rewrite Z1, Z2. reflexivity.
Qed.
Lemma improve_level w x : level w -> level x -> level (improve sp k f d w x).
Proof.
  intros W X r c Hr Hc. pose proof (inc_level w x W X r c Hr Hc) as I. unfold improve, cell in *. cbv zeta. rewrite !memo_get by (apply rc_lt; lia). rewrite I. pose proof (X r c Hr Hc) as A. unfold cell in A. rewrite A. reflexivity.
Qed.

(** ** Steps without neighbours *)
Lemma tiny_compat e a b : a == b -> no_tiny_negative e 0 a == no_tiny_negative e 0 b.
Proof. intros H. unfold no_tiny_negative. rewrite (qltb_compat a b 0 0 H (Qeq_refl 0)), (qltb_compat (- e) (- e) a b (Qeq_refl _) H). destruct (_ && _); [reflexivity | exact H]. Qed.
Lemma tidy_level x z : level x -> ptidy k x = Some z -> level z.
Proof.
  intros X. unfold ptidy. set (y := memo (cells k) _). assert (L : level y). { intros r c Hr Hc. unfold cell, y. rewrite !memo_get by (apply rc_lt; lia). apply tiny_compat, (X r c Hr Hc). }
  clearbody y. unfold remove_negatives. destruct (anyn (cells k) (negative y)); [|intros E; injection E as <-; exact L].
  destruct (Qeq_bool (pos_sum (cells k) y) 0). cbn [orb]. destruct (negb _); intros E; [|discriminate E]. injection E as <-. intros r c _ _. reflexivity.
  intros E. injection E as <-. intros r c Hr Hc. unfold cell. rewrite !memo_get by (apply rc_lt; lia). specialize (L r c Hr Hc). unfold cell in L. unfold negative. rewrite (qltb_compat _ _ 0 0 L (Qeq_refl 0)). destruct (Qltb _ _); [reflexivity|]. rewrite L. reflexivity.
Qed.
Lemma demand_level w x : level w -> level x -> level (demand k d w x).
Proof. intros W X r c Hr Hc. pose proof (W r c Hr Hc) as A. pose proof (X r c Hr Hc) as B. pose proof (D2 r c Hr Hc) as C. unfold cell, demand in *. rewrite A, B, C. reflexivity. Qed.
Lemma reduced_level w x : level w -> level x -> level (memo (cells k) (reduced k d w x)).
Proof.
  intros W X r c Hr Hc. unfold cell. rewrite !memo_get by (apply rc_lt; lia). pose proof (demand_level w x W X r c Hr Hc) as M. pose proof (W r c Hr Hc) as A. pose proof (X r c Hr Hc) as B. pose proof (D2 r c Hr Hc) as C. pose proof (D6 r c Hr Hc) as D. unfold cell in *. unfold reduced, short.
  set (i := (r * width k + c)%nat) in *. set (j := (0 * width k + c)%nat) in *. rewrite (qltb_compat (max_error k) (max_error k) (demand k d w x i - mass d i) (demand k d w x j - mass d j)), (qltb_compat 0 0 (w i * Cu d i) (w j * Cu d j)); try reflexivity.
  - destruct (_ && _). rewrite B, C, D. reflexivity. exact A.
  - rewrite A, C. reflexivity.
  - rewrite M, D. reflexivity.
Qed.
Lemma iterate_level : forall fuel w x o, level w -> level x -> piterate sp k f d w x fuel = Some o -> level (ct o) /\ level (pickup o) /\ level (weight o).
Proof.
  induction fuel as [|fuel IH]; intros w x o W X; cbn [piterate]; destruct (ptidy k (improve sp k f d w x)) as [z|] eqn:E; try discriminate; pose proof (tidy_level _ _ (improve_level w x W X) E) as L; destruct (anyn _ _); cbv zeta.
  - intros H. injection H as <-. cbn [ct pickup weight]. split; [exact L|]. split; [apply demand_level | apply reduced_level]; assumption.
  - intros H. injection H as <-. cbn [ct pickup weight]. split; [exact L|]. split; [apply demand_level; assumption | exact W].
  - apply IH; [apply reduced_level; assumption | exact L].
  - intros H. injection H as <-. cbn [ct pickup weight]. split; [exact L|]. split; [apply demand_level; assumption | exact W].
Qed.
End Rows.

Lemma rows_alike : forall sp (k : pcfg) f d w x u v o, workable k -> rectangular k f -> known_borders k -> uniform_wind k f u v -> solvable sp (number_of_cells k) (pmatrix k f) -> lateral k = Gradient ->
  same_rows k d w x -> 0 <= v -> (offshore k = Constant \/ onshore k = Constant -> v == 0) -> pieter_fraction sp k f d w x = Ok (Some o) ->
  forall r c, (r <= ny k)%nat -> (c <= nx k)%nat -> at_cell k (ct o) r c == at_cell k (ct o) 0 c /\ at_cell k (pickup o) r c == at_cell k (pickup o) 0 c /\ at_cell k (weight o) r c == at_cell k (weight o) 0 c.
Proof.
  intros sp k f d w x u v o H1 H2 H3 H4 H5 H6 H7 H8 H9 H r c Hr Hc.
  assert (G : level k (ct o) /\ level k (pickup o) /\ level k (weight o)).
  { unfold pieter_fraction in H. destruct (pcheck k) as [[]|]; [|discriminate H]. cbn [bind] in H. injection H as H.
    refine (iterate_level k f d u v H1 H2 H3 H4 H8 H6 H9 _ _ _ _ _ _ sp H5 _ w x o _ _ H); intros r' c' Hr' Hc'; apply (H7 r' c' Hr' Hc'). }
  destruct G as (G1 & G2 & G3). split; [apply (G1 r c Hr Hc) | split; [apply (G2 r c Hr Hc) | apply (G3 r c Hr Hc)]].
Qed.
