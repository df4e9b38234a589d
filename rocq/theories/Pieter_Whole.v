(** Whole time steps of the solvers 'pieter' and 'steadystatepieter'. *)
From Coq Require Import QArith Lia Lqa List Bool Arith Setoid.
From Verif Require Import Base Num Utils_Model Solver_Model Solver_Spec Linear Solver_Proofs Solver_Iter Pieter_Model Pieter_Spec Pieter_Proofs Pieter_Coefs Pieter_Balance Pieter_Unique.
Import ListNotations.
Open Scope Q_scope.

Lemma tiny_same e x : 0 <= x -> no_tiny_negative e 0 x = x.
Proof. intros H. unfold no_tiny_negative. destruct (Qltb_spec x 0); [lra | reflexivity]. Qed.
Lemma ptidy_same (k : pcfg) x : (forall i, (i < cells k)%nat -> 0 <= x i) -> exists z, ptidy k x = Some z /\ forall i, (i < cells k)%nat -> z i = x i.
Proof.
  intros H. unfold ptidy. set (y := memo (cells k) _). assert (E : forall i, (i < cells k)%nat -> y i = x i) by (intros i Hi; unfold y; rewrite memo_get by exact Hi; apply tiny_same, H, Hi).
  exists y. split; [|exact E]. unfold remove_negatives. destruct (anyn (cells k) (negative y)) eqn:A; [|reflexivity]. exfalso.
  apply anyn_spec in A. destruct A as (i & Hi & A). unfold negative in A. rewrite (E i Hi) in A. specialize (H i Hi). destruct (Qltb_spec (x i) 0). lra. discriminate.
Qed.
(** An invariant of the rounds holds in the last one, whose result is the outcome. *)
Lemma rounds sp (k : pcfg) f d (I : (nat -> Q) -> (nat -> Q) -> Prop) :
  (forall w x, I w x -> forall i, (i < cells k)%nat -> 0 <= improve sp k f d w x i) ->
  (forall w x c, I w x -> (forall i, (i < cells k)%nat -> c i = improve sp k f d w x i) -> anyn (cells k) (short k d w c) = true -> I (memo (cells k) (reduced k d w c)) c) ->
  forall fuel w x, I w x -> exists o w' x', piterate sp k f d w x fuel = Some o /\ I w' x' /\
    (forall i, (i < cells k)%nat -> ct o i = improve sp k f d w' x' i /\ pickup o i = demand k d w' (ct o) i /\ (converged o = true -> weight o i = w' i) /\ (converged o = false -> weight o i = reduced k d w' (ct o) i)) /\
    (converged o = true -> forall i, (i < cells k)%nat -> short k d w' (ct o) i = false).
Proof.
  intros HN HI. induction fuel as [|n IH]; intros w x Hwx; cbn [piterate]; destruct (ptidy_same k _ (HN w x Hwx)) as (c & -> & Hc); destruct (anyn (cells k) (short k d w c)) eqn:A.
  - do 3 eexists. split; [reflexivity|]. split; [exact Hwx|]. split; [|discriminate]. intros i Hi. cbn [ct pickup weight converged]. repeat split. exact (Hc i Hi). discriminate. intros _. rewrite memo_get by exact Hi. reflexivity.
  - do 3 eexists. split; [reflexivity|]. split; [exact Hwx|]. cbn [ct pickup weight converged]. split. intros i Hi. repeat split. exact (Hc i Hi). discriminate. intros _. apply anyn_false, A.
  - apply IH. exact (HI w x c Hwx Hc A).
  - do 3 eexists. split; [reflexivity|]. split; [exact Hwx|]. cbn [ct pickup weight converged]. split. intros i Hi. repeat split. exact (Hc i Hi). discriminate. intros _. apply anyn_false, A.
Qed.

Lemma side_ext (k : pcfg) f g h r c : (r <= ny k)%nat -> (c <= nx k)%nat -> (forall r c, within k r c -> g r c == h r c) -> sideways k f g r c == sideways k f h r c.
Proof.
  intros Hr Hc H. unfold sideways. assert (row_down k r <= ny k)%nat by (unfold row_down; destruct (Nat.eqb_spec r (ny k)); lia).
  rewrite (blown_compat _ _ _ _ _ _ (Qeq_refl _) (H r c (conj Hr Hc)) (H (row_down k r) c ltac:(split; assumption))). reflexivity.
Qed.
Lemma on_ext (k : pcfg) f g h r c : (r <= ny k)%nat -> (S c <= nx k)%nat -> (forall r c, within k r c -> g r c == h r c) -> onwards k f g r c == onwards k f h r c.
Proof. intros Hr Hc H. unfold onwards. rewrite (blown_compat _ _ _ _ _ _ (Qeq_refl _) (H r c ltac:(split; lia)) (H r (S c) ltac:(split; lia))). reflexivity. Qed.
Lemma brought_ext (k : pcfg) f d g h r c : (r <= ny k)%nat -> (c <= nx k)%nat -> (forall r c, within k r c -> g r c == h r c) -> brought k f d g r c == brought k f d h r c.
Proof.
  intros Hr Hc H. unfold brought. rewrite !(side_ext k f g h _ _) by (try assumption; unfold row_up; destruct r; lia).
  assert (E : enters k f d g r c == enters k f d h r c) by (unfold enters; destruct (Nat.eqb_spec c 0); [reflexivity|]; destruct (_ && _); [reflexivity | apply on_ext; try assumption; lia]).
  assert (L : leaves k f d g r c == leaves k f d h r c) by (unfold leaves; destruct (Nat.eqb_spec c (nx k)); [reflexivity|]; destruct (_ && _); [reflexivity | apply on_ext; try assumption; lia]). rewrite E, L. reflexivity.
Qed.

Section Round.
Variable sp : (nat -> nat -> Q) -> (nat -> Q) -> nat -> Q.
Variable k : pcfg.
Variable f : flow.
Variable d : input.
Hypothesis Hw : workable k.
Hypothesis Hrect : rectangular k f.
Hypothesis Hknown : known_ends k.
Hypothesis Hside : sideways_fine k f.
Hypothesis Hsp : exact_solver (number_of_cells k) (pmatrix k f) sp.
Notation al := (implicitness k).
Notation vs := (speed_s k f).
Notation vn := (speed_n k f).
Notation mix x := (as_grid k (mixed k d x)).
Let HnX := Hnx k Hw.
Let HnY := Hny k Hw.
Let HlaT := Hlat k Hknown.

Definition inc (w x : nat -> Q) : nat -> Q := sp (pmatrix k f) (prhs k f d w x).
Lemma inc_solves w x : solves (cells k) (pmatrix k f) (prhs k f d w x) (inc w x).
Proof. rewrite cells_eq. apply solves_iff. apply Hsp. destruct (one k f Hw Hrect Hknown Hside (prhs k f d w x)) as (y & Hy & _). exists y. exact Hy. Qed.
Lemma improve_eq w x i : (i < cells k)%nat -> improve sp k f d w x i = x i + inc w x i.
Proof. intros Hi. unfold improve. cbv zeta. rewrite memo_get by exact Hi. reflexivity. Qed.
Lemma improve_unique w x y : (forall i, (i < cells k)%nat -> mulv (cells k) (pmatrix k f) y i == prhs k f d w x i) -> forall i, (i < cells k)%nat -> improve sp k f d w x i == x i + y i.
Proof.
  intros H i Hi. rewrite improve_eq by exact Hi. destruct (weights_exist k f Hw Hrect Hknown Hside) as [v Hv].
  rewrite (unique_solution (cells k) (pmatrix k f) v (prhs k f d w x) (inc w x) y (npos k f Hw Hrect Hknown) Hv (inc_solves w x) H i Hi). reflexivity.
Qed.
(** The law of a cell for the new guess. *)
Lemma round_law w x r c : (r <= ny k)%nat -> (c <= nx k)%nat -> free_column k c ->
  let z := improve sp k f d w x in
  only (trunk k) (dsdn f r c / dt k * (cell k z r c - cell k (lCt d) r c)) + alone k f (fun i => z i - x i) r c ==
  eroded k f d w x r c - settles k f d z r c + brought k f d (mix z) r c + only (forgotten k r) (sideways k f (mix x) r c).
Proof.
  intros Hr Hc F z. pose proof (law k f d HnX HlaT Hrect HnY Hside w x (inc w x) r c Hr Hc F (inc_solves w x)) as L. cbv zeta in L.
  assert (Z : forall r c, within k r c -> cell k z r c == cell k x r c + cell k (inc w x) r c) by (intros r' c' [Hr' Hc']; unfold cell, z; rewrite improve_eq by (apply rc_lt; assumption); reflexivity).
  assert (Y : forall r c, within k r c -> mix z r c == mix (fun i => x i + inc w x i) r c) by (intros r' c' Hi; specialize (Z r' c' Hi); unfold as_grid, at_cell, mixed, cell, width in *; rewrite Z; reflexivity).
  rewrite (brought_ext k f d _ _ r c Hr Hc Y). specialize (Z r c (conj Hr Hc)).
  assert (E1 : alone k f (fun i => z i - x i) r c == alone k f (inc w x) r c) by (unfold alone, cell in *; rewrite Z; setoid_replace (x (r * width k + c)%nat + inc w x (r * width k + c)%nat - x (r * width k + c)%nat) with (inc w x (r * width k + c)%nat) by ring; reflexivity).
  assert (E2 : settles k f d z r c == settles k f d (fun i => x i + inc w x i) r c) by (unfold settles, mixed, cell in *; rewrite Z; reflexivity).
  rewrite E1, E2, Z. exact L.
Qed.

(** ** Fully implicit *)
Hypothesis Himp : fully_implicit k.
Lemma al1 : al == 1.
Proof. unfold implicitness. destruct (trunk k) eqn:E. exact (Himp E). reflexivity. Qed.
Lemma mixed1 x i : mixed k d x i == x i.
Proof. unfold mixed. rewrite al1. ring. Qed.
Lemma uptake1 w r c : uptake k f d w r c == dsdn f r c / T k * (cell k w r c * cell k (Cu d) r c).
Proof. unfold uptake. rewrite al1. ring. Qed.
Lemma settles1 x r c : settles k f d x r c == dsdn f r c / T k * cell k x r c.
Proof. unfold settles. unfold cell. rewrite mixed1. reflexivity. Qed.
Lemma available1 x r c : available k f d x r c == dsdn f r c / T k * (cell k (mass d) r c + cell k x r c).
Proof. unfold available. rewrite settles1. ring. Qed.
Lemma mix1 x r c : mix x r c == cell k x r c.
Proof. unfold as_grid, at_cell, cell, width. apply mixed1. Qed.
(** What comes in when there is nothing in the air. *)
Definition outside (r c : nat) : Q := brought k f d (fun _ _ => 0) r c.
(** The matrix times the new guess. *)
Lemma row_new w x r c : (r <= ny k)%nat -> (c <= nx k)%nat -> free_column k c ->
  mulv (cells k) (pmatrix k f) (improve sp k f d w x) (r * width k + c) ==
  only (trunk k) (dsdn f r c / dt k * cell k (lCt d) r c) + eroded k f d w x r c + outside r c + alone k f x r c + only (forgotten k r) (sideways k f (mix x) r c).
Proof.
  intros Hr Hc F. set (z := improve sp k f d w x). pose proof (round_law w x r c Hr Hc F) as L. cbv zeta in L. fold z in L.
  rewrite (row_free k f HnX HlaT Hrect HnY Hside z r c Hr Hc F).
  pose proof (brought_add k f d HnX HlaT Hrect (fun _ => 0) z r c Hr Hc) as B.
  assert (B0 : brought k f d (mix (fun i => 0 + z i)) r c == brought k f d (mix z) r c) by (apply brought_ext; try assumption; intros; rewrite !mix1; unfold cell; ring).
  assert (B1 : brought k f d (mix (fun _ => 0)) r c == outside r c) by (apply brought_ext; try assumption; intros; rewrite !mix1; unfold cell; ring).
  rewrite B0, B1 in B. rewrite B in L. rewrite settles1 in L.
  assert (A : alone k f (fun i => z i - x i) r c == alone k f z r c - alone k f x r c) by (unfold alone, cell, only; destruct (Nat.eqb (ny k) 0); ring).
  rewrite A in L. set (ff := only (forgotten k r) _) in *. set (lin1 := only (lo k c) _) in *. set (lin2 := only (hi k c) _) in *. rewrite al1.
  assert (TT : only (trunk k) (dsdn f r c / dt k * (cell k z r c - cell k (lCt d) r c)) == only (trunk k) (dsdn f r c / dt k * cell k z r c) - only (trunk k) (dsdn f r c / dt k * cell k (lCt d) r c)) by (unfold only; destruct (trunk k); ring).
  rewrite TT in L. rewrite al1 in L. lra.
Qed.
Lemma outside_nn r c : flux_enters k f -> nonnegative_input k d -> (r <= ny k)%nat -> (c <= nx k)%nat -> 0 <= outside r c.
Proof.
  intros [G1 G2] Hin Hr Hc. pose proof HnX as HX.
  assert (Z : forall u, blown u 0 0 == 0) by (intros; rewrite blown_pos; ring).
  assert (Zs : forall r c, sideways k f (fun _ _ => 0) r c == 0) by (intros; unfold sideways; rewrite Z; ring).
  assert (Zo : forall r c, onwards k f (fun _ _ => 0) r c == 0) by (intros; unfold onwards; rewrite Z; ring).
  assert (C0 : forall c, (c <= nx k)%nat -> 0 <= at_cell k (Cu0 d) r c) by (intros c' Hc'; apply (Hin (r * S (nx k) + c')%nat); unfold number_of_cells; nia).
  destruct (Hrect r c Hr Hc) as (_ & _ & Dn & _). unfold outside, brought. rewrite !Zs.
  assert (P : forall u fl q, 0 <= u * fl -> 0 <= q -> 0 <= dn f r c * u * (fl * q)) by (intros u fl q H1 H2; setoid_replace (dn f r c * u * (fl * q)) with (dn f r c * ((u * fl) * q)) by ring; apply mul_nn; [lra | apply mul_nn; assumption]).
  assert (E : 0 <= enters k f d (fun _ _ => 0) r c).
  { unfold enters. destruct (Nat.eqb_spec c 0) as [->|]. destruct (offshore k) eqn:K; try lra. apply P; [apply G1; [reflexivity | exact Hr] | apply C0; lia].
    destruct (_ && _). lra. rewrite Zo. lra. }
  assert (L : leaves k f d (fun _ _ => 0) r c <= 0).
  { unfold leaves. destruct (Nat.eqb_spec c (nx k)) as [->|]. destruct (onshore k) eqn:K; try lra. pose proof (P (us f r (nx k)) (onshore_flux k) (at_cell k (Cu0 d) r (nx k)) (G2 eq_refl r Hr) (C0 _ (le_n _))). lra.
    destruct (_ && _). lra. rewrite Zo. lra. }
  lra.
Qed.

(** ** Columns with given concentrations *)
Definition extra (c : nat) : Q := if trunk k then 0 else if Nat.eqb c 0 then constant_offshore_flux k else constant_onshore_flux k.
Lemma side_fixed w x r c : (r <= ny k)%nat -> (c <= nx k)%nat -> ~ free_column k c ->
  side k f d w x r c == extra c - only (Nat.eqb r (ny k)) (ds f r c * (vn (S (ny k)) c * face_n k f d x (S (ny k)) c)) + only (Nat.eqb r 0) (ds f r c * (vn 0%nat c * face_n k f d x 0%nat c)).
Proof.
  intros Hr Hc F. pose proof HnX as HX. unfold side, first_side, last_side. rewrite HlaT.
  assert (E : onshore_side k f d x r c (offshore_side k f d x r c (residual k f d w x r c)) == extra c).
  { unfold onshore_side, offshore_side, extra. destruct (not_free k c F) as [[-> K]|[-> K]]; rewrite K, ?Nat.eqb_refl.
    destruct (Nat.eqb_spec 0 (nx k)); [lia | reflexivity]. destruct (Nat.eqb_spec (nx k) 0); [lia | reflexivity]. }
  destruct (Nat.eqb_spec r 0) as [R|R], (Nat.eqb_spec r (ny k)) as [R'|R']; cbn [only]; rewrite E; try ring.
Qed.
Section Fixed.
Variables w x : nat -> Q.
Variable c : nat.
Hypothesis Hc : (c <= nx k)%nat.
Hypothesis F : ~ free_column k c.
Hypothesis Hforg : trunk k = true \/ no_side_wind k f.
Let z := improve sp k f d w x.
Let V := vn 0%nat c.
Let p := ds f 0%nat c * pos V.
Let q := ds f 0%nat c * neg V.
Lemma Vlast : vn (S (ny k)) c == V.
Proof. unfold V. rewrite (vn_high k f HnX HlaT _ c (le_n _)), (vn_low k f HnX HlaT 0%nat c (Nat.le_0_l _)). unfold row_down. rewrite Nat.eqb_refl. cbn [row_up]. reflexivity. Qed.
Lemma p_nn : 0 <= p.
Proof. unfold p. destruct (Hrect 0%nat c (Nat.le_0_l _) Hc) as (D & _). apply mul_nn. lra. apply pos_nn. Qed.
Lemma q_np : q <= 0.
Proof. unfold q. destruct (Hrect 0%nat c (Nat.le_0_l _) Hc) as (D & _). apply mul_np. lra. apply neg_np. Qed.
Lemma pq : p == 0 \/ q == 0.
Proof. unfold p, q, pos, neg. destruct (upw_cases V) as [[_ ->]|[_ ->]]; [right | left]; ring. Qed.
Lemma calm : trunk k = false -> p == 0 /\ q == 0.
Proof.
  intros E. destruct Hforg as [H|H]; [congruence|]. assert (V0 : V == 0) by (unfold V; rewrite (vn_low k f HnX HlaT 0%nat c (Nat.le_0_l _)); cbn [row_up]; rewrite (H (ny k) c), (H 0%nat c) by (split; lia); reflexivity).
  unfold p, q. rewrite V0. unfold pos, neg. split; ring.
Qed.
(** The lateral faces. *)
Lemma face_first : ds f 0%nat c * (vn 0%nat c * face_n k f d x 0%nat c) == p * cell k x (ny k) c + q * cell k x 0%nat c.
Proof.
  rewrite (through_low k f d HnX HlaT x 0%nat c (Nat.le_0_l _)). rewrite (blown_compat _ V _ _ _ _ (Qeq_sym _ _ (vn_low k f HnX HlaT 0%nat c (Nat.le_0_l _))) (Qeq_refl _) (Qeq_refl _)).
  rewrite blown_pos. cbn [row_up]. rewrite !mix1. unfold p, q. ring.
Qed.
Lemma face_last : ds f (ny k) c * (vn (S (ny k)) c * face_n k f d x (S (ny k)) c) == p * cell k x (ny k) c + q * cell k x 0%nat c.
Proof.
  rewrite (ds_eq k f Hrect (ny k) 0%nat c) by lia. rewrite (through_high k f d HnX HlaT x (ny k) c (le_n _)). set (bl := blown _ _ _).
  assert (B : ds f 0%nat c * bl == p * cell k x (ny k) c + q * cell k x 0%nat c).
  { unfold bl. rewrite (blown_compat _ V _ _ _ _ (Qeq_trans _ _ _ (Qeq_sym _ _ (vn_high k f HnX HlaT (ny k) c (le_n _))) Vlast) (Qeq_refl _) (Qeq_refl _)).
    rewrite blown_pos. unfold row_down. rewrite Nat.eqb_refl, !mix1. unfold p, q. ring. }
  pose proof calm as CA. unfold forgotten. destruct (trunk k); cbn [negb andb only]. rewrite <- B. ring. destruct (CA eq_refl) as [P0 Q0]. rewrite P0, Q0, Nat.eqb_refl. cbn [only]. ring.
Qed.
Lemma fixed_row r : (r <= ny k)%nat ->
  (1 - only (Nat.eqb r 0) q + only (Nat.eqb r (ny k)) p) * (cell k z r c - cell k x r c)
  + (if Nat.eqb (ny k) 0 then 0 else - only (Nat.eqb r 0) p * (cell k z (prev_row k r) c - cell k x (prev_row k r) c) + only (Nat.eqb (next_row k r) (ny k)) q * (cell k z (next_row k r) c - cell k x (next_row k r) c))
  == extra c - only (Nat.eqb r (ny k)) (p * cell k x (ny k) c + q * cell k x 0%nat c) + only (Nat.eqb r 0) (p * cell k x (ny k) c + q * cell k x 0%nat c).
Proof.
  intros Hr. pose proof (inc_solves w x _ (rc_lt k r c Hr Hc)) as S0. unfold prhs in S0. rewrite (flat_rc k) in S0 by exact Hc. rewrite (side_fixed w x r c Hr Hc F) in S0.
  rewrite (prow k f HnY HnX (inc w x) r c Hr Hc) in S0. destruct (fixed_coefs k f Hw Hknown r c Hr Hc F) as (A0 & A1 & A2 & A3 & _).
  destruct (fixed_coefs k f Hw Hknown (next_row k r) c (row_down_le k HnX r Hr) Hc F) as (_ & _ & _ & _ & A4).
  assert (Z : forall r', (r' <= ny k)%nat -> cell k z r' c - cell k x r' c == cell k (inc w x) r' c) by (intros r' Hr'; unfold cell, z; rewrite improve_eq by (apply rc_lt; assumption); ring).
  assert (D : forall r', (r' <= ny k)%nat -> ds f r' c == ds f 0%nat c) by (intros r' Hr'; apply (ds_eq k f Hrect); lia).
  assert (Fl : only (Nat.eqb r (ny k)) (ds f r c * (vn (S (ny k)) c * face_n k f d x (S (ny k)) c)) == only (Nat.eqb r (ny k)) (p * cell k x (ny k) c + q * cell k x 0%nat c)).
  { destruct (Nat.eqb_spec r (ny k)) as [->|]; cbn [only]; [apply face_last | reflexivity]. }
  assert (Ff : only (Nat.eqb r 0) (ds f r c * (vn 0%nat c * face_n k f d x 0%nat c)) == only (Nat.eqb r 0) (p * cell k x (ny k) c + q * cell k x 0%nat c)).
  { destruct (Nat.eqb_spec r 0) as [->|]; cbn [only]; [apply face_first | reflexivity]. }
  rewrite Fl, Ff in S0. rewrite <- S0. rewrite A0, A1, A2. rewrite (Z r Hr).
  assert (P : forall r', (r' <= ny k)%nat -> ds f r' c * pos (vn 0%nat c) * al == p) by (intros r' Hr'; rewrite (D r' Hr'), al1; unfold p, V; ring).
  assert (N : forall r', (r' <= ny k)%nat -> ds f r' c * neg (vn 0%nat c) * al == q) by (intros r' Hr'; rewrite (D r' Hr'), al1; unfold q, V; ring).
  rewrite (P r Hr), (N r Hr). destruct (Nat.eqb (ny k) 0). ring.
  rewrite A3, A4, (P r Hr), (N (next_row k r) (row_down_le k HnX r Hr)), (Z _ (row_down_le k HnX r Hr : (next_row k r <= ny k)%nat)), (Z _ (row_up_le k HnX r Hr : (prev_row k r <= ny k)%nat)). ring.
Qed.
Lemma fixed_nn : 0 <= extra c -> (forall r, (r <= ny k)%nat -> 0 <= cell k x r c) -> forall r, (r <= ny k)%nat -> 0 <= cell k z r c.
Proof.
  intros He Hx r Hr. pose proof HnY as HY. pose proof p_nn as HP. pose proof q_np as HQ.
  destruct (Nat.eqb_spec (ny k) 0) as [Hz|Hz].
  - assert (r = 0%nat) by lia. subst r. pose proof (fixed_row 0%nat Hr) as L. rewrite Hz in L. cbn [Nat.eqb only] in L. specialize (Hx 0%nat Hr).
    assert (0 <= cell k z 0%nat c - cell k x 0%nat c); [|lra]. destruct (Qlt_le_dec (cell k z 0%nat c - cell k x 0%nat c) 0) as [H|H]; [|exact H]. exfalso.
    assert (0 < (1 - q + p) * - (cell k z 0%nat c - cell k x 0%nat c)) by (apply mul_pos; lra). lra.
  - assert (Zl : (1 + p) * cell k z (ny k) c == extra c + cell k x (ny k) c - q * cell k x 0%nat c).
    { pose proof (fixed_row (ny k) (le_n _)) as L. unfold next_row in L. rewrite !Nat.eqb_refl in L. destruct (Nat.eqb_spec (ny k) 0); [lia|]. destruct (Nat.eqb_spec 0 (ny k)); [lia|]. cbn [only] in L. lra. }
    assert (Hl : 0 <= cell k z (ny k) c).
    { destruct (Qlt_le_dec (cell k z (ny k) c) 0) as [H|H]; [|exact H]. exfalso. assert (0 < (1 + p) * - cell k z (ny k) c) by (apply mul_pos; lra).
      assert (0 <= - q * cell k x 0%nat c) by (apply mul_nn; [lra | apply Hx; lia]). pose proof (Hx (ny k) (le_n _)). lra. }
    destruct (Nat.eq_dec r (ny k)) as [->|R]; [exact Hl|]. pose proof (fixed_row r Hr) as L. destruct (Nat.eqb_spec (ny k) 0); [lia|]. destruct (Nat.eqb_spec r (ny k)); [lia|]. unfold next_row in L. destruct (Nat.eqb_spec r (ny k)); [lia|].
    destruct (Nat.eqb_spec r 0) as [->|R0].
    + cbn [only prev_row] in L. destruct (Nat.eqb_spec 1 (ny k)); [lia|]. cbn [only] in L. assert (0 <= p * cell k z (ny k) c) by (apply mul_nn; assumption).
      destruct (Qlt_le_dec (cell k z 0%nat c) 0) as [HH|HH]; [|exact HH]. exfalso. assert (0 < (1 - q) * - cell k z 0%nat c) by (apply mul_pos; lra). pose proof (Hx 0%nat Hr). lra.
    + cbn [only] in L. pose proof (Hx r Hr) as Xr. destruct (Nat.eqb_spec (S r) (ny k)) as [E|E]; cbn [only] in L; [|lra]. rewrite E in L.
      assert (0 <= - q * (cell k z (ny k) c - cell k x (ny k) c)); [|lra]. destruct pq as [P0|Q0].
      * apply mul_nn. lra. rewrite P0 in Zl. assert (0 <= - q * cell k x 0%nat c) by (apply mul_nn; [lra | apply Hx; lia]). lra.
      * rewrite Q0. lra.
Qed.
(** Without lateral wind the concentration is that of before plus the configured number (in the steady state). *)
Lemma fixed_kept r : (r <= ny k)%nat -> vn 0%nat c == 0 -> cell k z r c == cell k x r c + extra c.
Proof.
  intros Hr H0. pose proof (fixed_row r Hr) as L. assert (P0 : p == 0) by (unfold p, V; rewrite H0; unfold pos; ring). assert (Q0 : q == 0) by (unfold q, V; rewrite H0; unfold neg; ring).
  assert (O : forall b t, t == 0 -> only b t == 0) by (intros [] t Ht; cbn [only]; lra).
  rewrite (O _ _ Q0), (O _ _ P0), (O (Nat.eqb r 0) (p * _ + _)), (O (Nat.eqb r (ny k)) (p * _ + _)) in L by (rewrite P0, Q0; ring).
  destruct (Nat.eqb (ny k) 0). lra. rewrite (O _ _ P0), (O _ _ Q0) in L. lra.
Qed.
End Fixed.

(** ** Nothing negative *)
Hypothesis Hflux : flux_enters k f.
Hypothesis Hforg : trunk k = true \/ no_side_wind k f.
Hypothesis Hconst : 0 <= constant_offshore_flux k /\ 0 <= constant_onshore_flux k.
Hypothesis Hin : nonnegative_input k d.
Lemma in_grid r c : (r <= ny k)%nat -> (c <= nx k)%nat -> (r * width k + c < number_of_cells k)%nat.
Proof. intros. rewrite <- cells_eq. apply rc_lt; assumption. Qed.
Lemma rates r c : (r <= ny k)%nat -> (c <= nx k)%nat -> 0 < dsdn f r c / dt k /\ 0 < dsdn f r c / T k.
Proof.
  intros Hr Hc. destruct (area_pos k f Hrect r c Hr Hc) as (A & _). pose proof Hw as (_ & _ & Hdt & HT & _). split; (apply mul_pos; [exact A | apply Qinv_lt_0_compat; assumption]).
Qed.
Lemma forgotten_0 x r c : (r <= ny k)%nat -> (c <= nx k)%nat -> only (forgotten k r) (sideways k f (mix x) r c) == 0.
Proof.
  intros Hr Hc. unfold forgotten. destruct Hforg as [->|H]. reflexivity. apply only_0. unfold sideways. rewrite blown_pos.
  assert (E : (un f r c + un f (row_down k r) c) / 2 == 0) by (rewrite (H r c), (H (row_down k r) c); [reflexivity | split; [apply row_down_le; assumption | exact Hc] | split; assumption]).
  rewrite E. unfold pos, neg. ring.
Qed.
Lemma eroded_cases w x r c : (r <= ny k)%nat -> (c <= nx k)%nat -> let i := (r * width k + c)%nat in
  eroded k f d w x r c == dsdn f r c / T k * qmin (w i * Cu d i) (mass d i + x i).
Proof.
  intros Hr Hc i. destruct (rates r c Hr Hc) as [_ R]. unfold eroded. pose proof (uptake1 w r c) as U. pose proof (available1 x r c) as A. unfold cell in U, A. fold i in U, A.
  set (a := dsdn f r c / T k) in *. unfold qmin. destruct (Qle_bool_spec (uptake k f d w r c) (available k f d x r c)) as [L|L], (Qle_bool_spec (w i * Cu d i) (mass d i + x i)) as [L'|L'].
  - exact U.
  - exfalso. assert (0 < a * (w i * Cu d i - (mass d i + x i))) by (apply mul_pos; lra). lra.
  - exfalso. assert (0 <= a * (mass d i + x i - w i * Cu d i)) by (apply mul_nn; lra). lra.
  - exact A.
Qed.
Lemma new_nn w x : all_nonneg (number_of_cells k) w -> all_nonneg (number_of_cells k) x -> all_nonneg (number_of_cells k) (improve sp k f d w x).
Proof.
  intros HW HX0. unfold all_nonneg in *. rewrite <- cells_eq in HW, HX0 |- *. destruct (weights_exist k f Hw Hrect Hknown Hside) as [v Hv].
  apply (monotone_partial (cells k) (pmatrix k f) v (improve sp k f d w x) (npos k f Hw Hrect Hknown) Hv). intros i Hi Hneg.
  destruct (rc_of k i Hi) as (r & c & Hr & Hc & ->). set (j := (r * width k + c)%nat) in *. destruct (Hin j ltac:(rewrite <- cells_eq; exact Hi)) as (I1 & I2 & _ & I4 & I5).
  pose proof (HW j Hi) as W. pose proof (HX0 j Hi) as X. destruct (free_dec k c) as [F|F].
  - unfold j. rewrite (row_new w x r c Hr Hc F), (forgotten_0 x r c Hr Hc), (eroded_cases w x r c Hr Hc). fold j. destruct (rates r c Hr Hc) as [R1 R2].
    pose proof (outside_nn r c Hflux Hin Hr Hc) as O. destruct (area_pos k f Hrect r c Hr Hc) as (_ & Ds & _).
    assert (0 <= only (trunk k) (dsdn f r c / dt k * cell k (lCt d) r c)) by (unfold only; destruct (trunk k); [apply mul_nn; [lra | exact I1] | lra]).
    assert (0 <= dsdn f r c / T k * qmin (w j * Cu d j) (mass d j + x j)).
    { apply mul_nn. lra. assert (0 <= w j * Cu d j) by (apply mul_nn; assumption). unfold qmin. destruct (Qle_bool _ _); lra. }
    assert (0 <= alone k f x r c).
    { unfold alone, only. destruct (Nat.eqb (ny k) 0); [|lra]. pose proof (pos_nn (un f r c)). pose proof (neg_np (un f r c)). apply mul_nn. apply mul_nn; lra. rewrite al1. change (cell k x r c) with (x j). lra. }
    lra.
  - exfalso. assert (E : 0 <= extra c) by (unfold extra; destruct (trunk k); [lra|]; destruct (Nat.eqb c 0); tauto).
    assert (0 <= cell k (improve sp k f d w x) r c). { apply (fixed_nn w x c Hc F Hforg E); [|exact Hr]. intros r' Hr'. apply HX0, rc_lt; assumption. }
    unfold cell in H. fold j in H. lra.
Qed.
(** The reduction of the weights. *)
Hypothesis Herr : 0 <= max_error k.
Lemma reduced_nn w c i : (i < number_of_cells k)%nat -> 0 <= w i -> 0 <= c i -> 0 <= reduced k d w c i <= w i /\ (short k d w c i = true -> reduced k d w c i * Cu d i == mass d i * T k / dt k + c i)
  /\ (short k d w c i = false -> w i * Cu d i <= 0 \/ demand k d w c i <= mass d i + max_error k) /\ (short k d w c i = true -> max_error k < demand k d w c i - mass d i).
Proof.
  intros Hi W C. pose proof Hw as (_ & _ & Hdt & HT & _). destruct (Hin i Hi) as (_ & _ & _ & I4 & I5). unfold reduced. destruct (short k d w c i) eqn:E; unfold short in E.
  - apply andb_prop in E. destruct E as [E1 E2]. destruct (Qltb_spec (max_error k) (demand k d w c i - mass d i)) as [L1|]; [|discriminate]. destruct (Qltb_spec 0 (w i * Cu d i)) as [L2|]; [|discriminate].
    assert (P : 0 < Cu d i). { destruct (Qlt_le_dec 0 (Cu d i)); [assumption|]. assert (Cu d i == 0) by lra. rewrite H in L2. lra. }
    assert (N : 0 <= mass d i * T k / dt k) by (apply mul_nn; [apply mul_nn; lra | apply Qlt_le_weak, Qinv_lt_0_compat, Hdt]).
    assert (R : (mass d i * T k / dt k + c i) / Cu d i * Cu d i == mass d i * T k / dt k + c i) by (field; split; lra).
    split; [|split; [intros _; exact R | split; [discriminate | intros _; exact L1]]]. split. apply Qle_shift_div_l. exact P. lra.
    apply Qle_shift_div_r. exact P. unfold demand in L1. destruct (Qlt_le_dec (w i * Cu d i) (mass d i * T k / dt k + c i)) as [HH|]; [|assumption]. exfalso.
    assert (0 < (mass d i * T k / dt k + c i - w i * Cu d i) * (/ T k * dt k)) by (apply mul_pos; [lra | apply mul_pos; [apply Qinv_lt_0_compat, HT | exact Hdt]]).
    setoid_replace ((mass d i * T k / dt k + c i - w i * Cu d i) * (/ T k * dt k)) with (mass d i - (w i * Cu d i - c i) / T k * dt k) in H by (field; split; lra). lra.
  - split. lra. split. discriminate. split; [|discriminate]. intros _. apply andb_false_iff in E. destruct E as [E|E].
    destruct (Qltb_spec (max_error k) (demand k d w c i - mass d i)); [discriminate | right; lra]. destruct (Qltb_spec 0 (w i * Cu d i)); [discriminate | left; lra].
Qed.
End Round.
