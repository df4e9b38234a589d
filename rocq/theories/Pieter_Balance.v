(** The law of a cell in the solvers 'pieter' and 'steadystatepieter'. *)
From Coq Require Import QArith Lia Lqa List Bool Arith Setoid.
From Verif Require Import Base Num Utils_Model Solver_Model Solver_Spec Linear Solver_Proofs Pieter_Model Pieter_Spec Pieter_Proofs Pieter_Coefs.
Import ListNotations.
Open Scope Q_scope.

Lemma blown_pos v a b : blown v a b == pos v * a + neg v * b.
Proof. unfold blown. rewrite pos_max, neg_min. reflexivity. Qed.
Lemma blown_compat u v a b a' b' : u == v -> a == a' -> b == b' -> blown u a b == blown v a' b'.
Proof. intros. rewrite !blown_pos, H, H0, H1. reflexivity. Qed.
Lemma upwind_blown v a b : v * (upw v * a + (1 - upw v) * b) == blown v a b.
Proof. rewrite blown_pos. unfold pos, neg. ring. Qed.

Section Law.
Variable k : pcfg.
Variable f : flow.
Variable d : input.
Hypothesis Hnx : (1 <= nx k)%nat.
Hypothesis Hlat : lateral k = Circular.
Hypothesis Hrect : rectangular k f.
Notation al := (implicitness k).
Notation vs := (speed_s k f).
Notation vn := (speed_n k f).
Notation mix x := (as_grid k (mixed k d x)).

Lemma dn_eq r c c' : (r <= ny k)%nat -> (c <= nx k)%nat -> (c' <= nx k)%nat -> dn f r c == dn f r c'.
Proof. intros. destruct (Hrect r c) as (_ & _ & _ & E); auto. destruct (Hrect r c') as (_ & _ & _ & E'); auto. rewrite E, E'. reflexivity. Qed.
Lemma ds_eq r r' c : (r <= ny k)%nat -> (r' <= ny k)%nat -> (c <= nx k)%nat -> ds f r c == ds f r' c.
Proof. intros. destruct (Hrect r c) as (_ & E & _); auto. destruct (Hrect r' c) as (_ & E' & _); auto. rewrite E, E'. reflexivity. Qed.
Lemma vs_eq r c : (S c <= nx k)%nat -> vs r (S c) == (us f r c + us f r (S c)) / 2.
Proof. intros. unfold speed_s. cbn [Nat.eqb]. destruct (Nat.eqb_spec c (nx k)); [lia|]. replace (S c - 1)%nat with c by lia. field. Qed.
Lemma vn_low r c : (r <= ny k)%nat -> vn r c == (un f (row_up k r) c + un f r c) / 2.
Proof.
  intros. unfold speed_n. rewrite Hlat. cbn [beq]. destruct r as [|r]; cbn [Nat.eqb orb row_up]. field. destruct (Nat.eqb_spec r (ny k)); [lia|]. replace (S r - 1)%nat with r by lia. field.
Qed.
Lemma vn_high r c : (r <= ny k)%nat -> vn (S r) c == (un f r c + un f (row_down k r) c) / 2.
Proof.
  intros. unfold speed_n, row_down. rewrite Hlat. cbn [beq Nat.eqb orb]. destruct (Nat.eqb_spec r (ny k)) as [->|]. field. replace (S r - 1)%nat with r by lia. field.
Qed.
Lemma row_up_le r : (r <= ny k)%nat -> (row_up k r <= ny k)%nat.
Proof. intros. unfold row_up. destruct r; lia. Qed.
Lemma row_down_le r : (r <= ny k)%nat -> (row_down k r <= ny k)%nat.
Proof. intros. unfold row_down. destruct (Nat.eqb_spec r (ny k)); lia. Qed.
Lemma down_up r : (r <= ny k)%nat -> row_down k (row_up k r) = r.
Proof. intros. unfold row_down, row_up. destruct r as [|r]. rewrite Nat.eqb_refl. reflexivity. destruct (Nat.eqb_spec r (ny k)); [lia|reflexivity]. Qed.
Lemma up_down r : (r <= ny k)%nat -> row_up k (row_down k r) = r.
Proof. intros. unfold row_down, row_up. destruct (Nat.eqb_spec r (ny k)); auto. Qed.

Lemma through_s x r c : (S c <= nx k)%nat -> vs r (S c) * face_s k f d x r (S c) == blown ((us f r c + us f r (S c)) / 2) (mix x r c) (mix x r (S c)).
Proof.
  intros H. unfold face_s. cbn [Nat.eqb orb]. destruct (Nat.eqb_spec c (nx k)); [lia|]. cbv zeta. rewrite upwind_blown. replace (S c - 1)%nat with c by lia.
  apply blown_compat; [apply vs_eq, H | reflexivity..].
Qed.
Lemma through_low x r c : (r <= ny k)%nat -> vn r c * face_n k f d x r c == blown ((un f (row_up k r) c + un f r c) / 2) (mix x (row_up k r) c) (mix x r c).
Proof.
  intros H. unfold face_n. cbv zeta. rewrite Hlat. cbn [beq andb]. destruct r as [|r]; cbn [Nat.eqb orb]. rewrite upwind_blown. apply blown_compat; [apply vn_low, H | reflexivity..].
  destruct (Nat.eqb_spec r (ny k)); [lia|]. rewrite upwind_blown. replace (S r - 1)%nat with r by lia. apply blown_compat; [apply vn_low, H | reflexivity..].
Qed.
(** The face that solve_steadystatepieter forgets. *)
Definition forgotten (r : nat) : bool := negb (trunk k) && Nat.eqb r (ny k).
Lemma through_high x r c : (r <= ny k)%nat -> vn (S r) c * face_n k f d x (S r) c ==
  blown ((un f r c + un f (row_down k r) c) / 2) (mix x r c) (mix x (row_down k r) c) - only (forgotten r) (blown ((un f r c + un f (row_down k r) c) / 2) (mix x r c) (mix x (row_down k r) c)).
Proof.
  intros H. set (bl := blown _ _ _).
  assert (B : bl == vn (S r) c * (upw (vn (S r) c) * mix x r c + (1 - upw (vn (S r) c)) * mix x (row_down k r) c))
    by (rewrite upwind_blown; apply blown_compat; [rewrite (vn_high r c H); reflexivity | reflexivity..]).
  unfold face_n, forgotten. cbv zeta. rewrite Hlat. cbn [beq andb Nat.eqb orb]. unfold row_down in B. destruct (Nat.eqb_spec r (ny k)) as [->|].
  - destruct (trunk k); cbn [negb andb only]; [|ring]. rewrite B. unfold as_grid, at_cell, cell, width. ring.
  - replace (S r - 1)%nat with r by lia. destruct (trunk k); cbn [negb andb only]; rewrite B; unfold as_grid, at_cell, cell, width; ring.
Qed.

(** The right hand side of a free cell. *)
Definition still (w x : nat -> Q) (r c : nat) : Q := - only (trunk k) (dsdn f r c / dt k * (cell k x r c - cell k (lCt d) r c)) + (eroded k f d w x r c - settles k f d x r c).
Lemma side_free w x r c : (r <= ny k)%nat -> (c <= nx k)%nat -> free_column k c ->
  side k f d w x r c == still w x r c + brought k f d (mix x) r c + only (forgotten r) (sideways k f (mix x) r c).
Proof.
  intros Hr Hc [F1 F2]. unfold side, first_side, last_side. rewrite Hlat.
  set (y0 := residual k f d w x r c). set (y1 := onshore_side k f d x r c (offshore_side k f d x r c y0)).
  pose proof (through_low x r c Hr) as TL. pose proof (through_high x r c Hr) as TH.
  assert (Y1 : y1 == still w x r c + enters k f d (mix x) r c - leaves k f d (mix x) r c
     + only (Nat.leb 1 r) (ds f r c * (vn r c * face_n k f d x r c)) - only (Nat.ltb r (ny k)) (ds f r c * (vn (S r) c * face_n k f d x (S r) c))).
  { unfold y1, onshore_side, offshore_side, y0, residual. fold (still w x r c).
    set (N := only (Nat.leb 1 r) (ds f r c * (vn r c * face_n k f d x r c))). set (M := only (Nat.ltb r (ny k)) (ds f r c * (vn (S r) c * face_n k f d x (S r) c))).
    assert (EN : only (Nat.leb 1 r) (ds f r c * vn r c * face_n k f d x r c) == N) by (unfold N, only; destruct (Nat.leb 1 r); ring).
    assert (EM : only (Nat.ltb r (ny k)) (ds f r c * vn (S r) c * face_n k f d x (S r) c) == M) by (unfold M, only; destruct (Nat.ltb r (ny k)); ring).
    assert (EL : forall c', (S c' <= nx k)%nat -> dn f r (S c') * vs r (S c') * face_s k f d x r (S c') == onwards k f (mix x) r c').
    { intros c' H. unfold onwards. rewrite <- (through_s x r c' H), (dn_eq r (S c') c') by lia. ring. }
    assert (EL' : forall c', (S c' <= nx k)%nat -> dn f r c' * vs r (S c') * face_s k f d x r (S c') == onwards k f (mix x) r c').
    { intros c' H. unfold onwards. rewrite <- (through_s x r c' H). ring. }
    unfold enters, leaves. destruct (Nat.eqb_spec c 0) as [E0|E0], (Nat.eqb_spec c (nx k)) as [E1|E1]; try lia; cbn [andb].
    - destruct (Nat.ltb_spec c (nx k)); [|lia]. destruct (Nat.leb_spec 1 c); [lia|]. cbn [only]. specialize (EL' c ltac:(lia)). specialize (EL c ltac:(lia)). subst c.
      assert (V0 : vs r 0%nat = us f r 0%nat) by reflexivity.
      destruct (offshore k) eqn:Eo; cbn [beq]; try (exfalso; apply F1; split; reflexivity); rewrite EN, EM, ?V0, ?EL, ?EL'; unfold at_cell, cell, width; try ring.
    - destruct (Nat.ltb_spec c (nx k)); [lia|]. destruct (Nat.leb_spec 1 c); [|lia]. cbn [only]. destruct c as [|c']; [lia|].
      replace (S c' - 1)%nat with c' by lia. specialize (EL' c' ltac:(lia)). specialize (EL c' ltac:(lia)). 
      assert (V0 : vs r (S (nx k)) = us f r (S c')) by (unfold speed_s; cbn [Nat.eqb]; rewrite Nat.eqb_refl, E1; reflexivity).
      replace (nx k - 1)%nat with c' by lia. rewrite <- E1 in *.
      destruct (onshore k) eqn:Eo; cbn [beq]; try (exfalso; apply F2; split; reflexivity); rewrite EN, EM, ?V0, ?EL, ?EL'; unfold at_cell, cell, width; rewrite <- ?E1; try ring.
    - destruct (Nat.ltb_spec c (nx k)); [|lia]. destruct (Nat.leb_spec 1 c); [|lia]. cbn [only]. rewrite EN, EM. destruct c as [|c']; [lia|].
      replace (S c' - 1)%nat with c' by lia. rewrite (EL c') by lia. rewrite (EL' (S c')) by lia. ring. }
  unfold brought, sideways. rewrite (down_up r Hr). rewrite (ds_eq (row_up k r) r c (row_up_le r Hr) Hr Hc).
  destruct (Nat.eqb_spec r 0) as [R0|R0], (Nat.eqb_spec r (ny k)) as [R1|R1]; destruct (Nat.leb_spec 1 r) as [R2|R2]; try lia; destruct (Nat.ltb_spec r (ny k)) as [R3|R3]; try lia; cbn [only] in Y1; rewrite ?Y1.
  all: rewrite <- ?TL.
  all: set (bl := blown ((un f r c + un f (row_down k r) c) / 2) (mix x r c) (mix x (row_down k r) c)) in *.
  all: assert (TH' : only (forgotten r) (ds f r c * bl) == ds f r c * (bl - vn (S r) c * face_n k f d x (S r) c)) by (rewrite TH; unfold only; destruct (forgotten r); ring).
  all: rewrite TH'.
  - rewrite <- R1, R0. ring.
  - rewrite R0. ring.
  - rewrite <- R1. ring.
  - ring.
Qed.

(** How the wind's contribution changes with the concentrations. *)
Section Change.
Variables x dx : nat -> Q.
Let z : nat -> Q := fun i => x i + dx i.
Notation D := (cell k dx).
Lemma mix_add r c : mix z r c == mix x r c + al * D r c.
Proof. unfold as_grid, at_cell, mixed, z, cell, width. ring. Qed.
Lemma onwards_add r c : (S c <= nx k)%nat -> onwards k f (mix z) r c == onwards k f (mix x) r c + dn f r c * (pos (vs r (S c)) * (al * D r c) + neg (vs r (S c)) * (al * D r (S c))).
Proof. intros H. unfold onwards. rewrite !blown_pos, !mix_add, (vs_eq r c H). ring. Qed.
Lemma enters_add r c : (r <= ny k)%nat -> (c <= nx k)%nat -> enters k f d (mix z) r c == enters k f d (mix x) r c + only (lo k c) (dn f r c * (pos (vs r c) * (al * D r (c - 1)) + neg (vs r c) * (al * D r c))).
Proof.
  intros Hr Hc. unfold enters, lo. destruct c as [|c]. cbn. ring. cbn [Nat.eqb Nat.leb andb]. destruct (_ && beq (onshore k) Gradient). cbn [negb only]. ring.
  cbn [negb only]. replace (S c - 1)%nat with c by lia. rewrite onwards_add, (dn_eq r (S c) c) by lia. ring.
Qed.
Lemma leaves_add r c : (r <= ny k)%nat -> (c <= nx k)%nat -> leaves k f d (mix z) r c == leaves k f d (mix x) r c + only (hi k c) (dn f r c * (pos (vs r (S c)) * (al * D r c) + neg (vs r (S c)) * (al * D r (S c)))).
Proof.
  intros Hr Hc. unfold leaves, hi. destruct (Nat.eqb_spec c (nx k)) as [E|E], (Nat.ltb_spec c (nx k)) as [L|L]; try lia; cbn [andb]. cbn [only]. ring.
  destruct (_ && beq (offshore k) Gradient). cbn [negb only]. ring. cbn [negb only]. rewrite onwards_add by lia. ring.
Qed.
Lemma sideways_add r c : (r <= ny k)%nat -> sideways k f (mix z) r c == sideways k f (mix x) r c + ds f r c * (pos (vn (S r) c) * (al * D r c) + neg (vn (S r) c) * (al * D (row_down k r) c)).
Proof. intros H. unfold sideways. rewrite !blown_pos, !mix_add, (vn_high r c H). ring. Qed.
Lemma vn_up r c : (r <= ny k)%nat -> vn (S (row_up k r)) c == vn r c.
Proof. intros H. rewrite (vn_high _ c (row_up_le r H)), (vn_low r c H), (down_up r H). reflexivity. Qed.
Lemma brought_add r c : (r <= ny k)%nat -> (c <= nx k)%nat -> brought k f d (mix z) r c == brought k f d (mix x) r c
  + only (lo k c) (dn f r c * (pos (vs r c) * (al * D r (c - 1)) + neg (vs r c) * (al * D r c)))
  - only (hi k c) (dn f r c * (pos (vs r (S c)) * (al * D r c) + neg (vs r (S c)) * (al * D r (S c))))
  + ds f r c * (pos (vn r c) * (al * D (row_up k r) c) + neg (vn r c) * (al * D r c)) - ds f r c * (pos (vn (S r) c) * (al * D r c) + neg (vn (S r) c) * (al * D (row_down k r) c)).
Proof.
  intros Hr Hc. unfold brought. rewrite (enters_add r c Hr Hc), (leaves_add r c Hr Hc), (sideways_add _ c (row_up_le r Hr)), (sideways_add r c Hr), (vn_up r c Hr), (down_up r Hr), (ds_eq (row_up k r) r c (row_up_le r Hr) Hr Hc). ring.
Qed.
End Change.

Hypothesis Hny : (ny k <> 1)%nat.
Hypothesis Hside : sideways_fine k f.
(** With a single row the matrix contains a lateral wind that the right hand side does not. *)
Definition alone (dx : nat -> Q) (r c : nat) : Q := only (Nat.eqb (ny k) 0) (ds f r c * (pos (un f r c) - neg (un f r c)) * (al * cell k dx r c)).
Lemma vn_alone c : ny k = 0%nat -> vn 0%nat c == un f 0%nat c /\ vn 1%nat c == un f 0%nat c.
Proof.
  intros Hz. split. rewrite vn_low by lia. cbn [row_up]. rewrite Hz. field.
  rewrite vn_high by lia. unfold row_down. rewrite Hz. cbn [Nat.eqb]. field.
Qed.
(** The coefficient that is taken from the wrong row is the right one. *)
Lemma neg_next r c : (r <= ny k)%nat -> (c <= nx k)%nat -> ds f (row_down k r) c * neg (vn (S (row_down k r)) c) == ds f r c * neg (vn (S r) c).
Proof.
  intros Hr Hc. pose proof (row_down_le r Hr) as Hd. pose proof (row_down_le _ Hd) as Hdd. rewrite (vn_high r c Hr), (vn_high _ c Hd), (ds_eq (row_down k r) r c Hd Hr Hc). destruct Hside as [H|H].
  - rewrite (H r c Hr Hc), (H _ c Hd Hc), (H _ c Hdd Hc). reflexivity.
  - pose proof (H r c (conj Hr Hc)). pose proof (H _ c (conj Hd Hc)). pose proof (H _ c (conj Hdd Hc)). rewrite !neg_pos0. reflexivity.
    apply Qle_shift_div_l; lra. apply Qle_shift_div_l; lra.
Qed.
(** A row of the matrix in terms of the wind. *)
Lemma row_free dx r c : (r <= ny k)%nat -> (c <= nx k)%nat -> free_column k c ->
  mulv (cells k) (pmatrix k f) dx (r * width k + c) ==
  only (trunk k) (dsdn f r c / dt k * cell k dx r c) + dsdn f r c / T k * (al * cell k dx r c)
  - (only (lo k c) (dn f r c * (pos (vs r c) * (al * cell k dx r (c - 1)) + neg (vs r c) * (al * cell k dx r c)))
  - only (hi k c) (dn f r c * (pos (vs r (S c)) * (al * cell k dx r c) + neg (vs r (S c)) * (al * cell k dx r (S c))))
  + ds f r c * (pos (vn r c) * (al * cell k dx (row_up k r) c) + neg (vn r c) * (al * cell k dx r c)) - ds f r c * (pos (vn (S r) c) * (al * cell k dx r c) + neg (vn (S r) c) * (al * cell k dx (row_down k r) c))) + alone dx r c.
Proof.
  intros Hr Hc F. rewrite (prow k f Hny Hnx dx r c Hr Hc). destruct (free_coefs k f Hnx Hlat r c Hr Hc F) as (A0 & A1 & A2 & A3 & A4).
  assert (A4' : apx (coefs k f (next_row k r) c) == ds f r c * neg (vn (S r) c) * al).
  { destruct (free_coefs k f Hnx Hlat (next_row k r) c (row_down_le r Hr) Hc F) as (_ & _ & _ & _ & ->). change (next_row k r) with (row_down k r). rewrite (neg_next r c Hr Hc). reflexivity. }
  unfold along in A0. unfold alone. destruct (Nat.eqb_spec (ny k) 0) as [Hz|Hz].
  - assert (r = 0%nat) by lia. subst r. rewrite A0, A1, A2. destruct (vn_alone c Hz) as [V0 V1]. rewrite V0, V1. unfold row_up, row_down. rewrite Hz. cbn [Nat.eqb]. unfold only. destruct (trunk k), (lo k c), (hi k c); ring.
  - rewrite A0, A1, A2, A3, A4'. change (prev_row k r) with (row_up k r). change (next_row k r) with (row_down k r). unfold only. destruct (trunk k), (lo k c), (hi k c); ring.
Qed.
(** The law. *)
Lemma law w x dx r c : (r <= ny k)%nat -> (c <= nx k)%nat -> free_column k c -> solves (cells k) (pmatrix k f) (prhs k f d w x) dx ->
  let z := fun i => x i + dx i in
  only (trunk k) (dsdn f r c / dt k * (cell k z r c - cell k (lCt d) r c)) + alone dx r c ==
  eroded k f d w x r c - settles k f d z r c + brought k f d (mix z) r c + only (forgotten r) (sideways k f (mix x) r c).
Proof.
  intros Hr Hc F Hs z. specialize (Hs _ (rc_lt k r c Hr Hc)). rewrite (row_free dx r c Hr Hc F) in Hs.
  unfold prhs in Hs. rewrite (flat_rc k) in Hs by exact Hc. rewrite (side_free w x r c Hr Hc F) in Hs.
  pose proof (brought_add x dx r c Hr Hc) as B. fold z in B. rewrite B. unfold still in Hs.
  assert (E : settles k f d z r c == settles k f d x r c + dsdn f r c / T k * (al * cell k dx r c)) by (unfold settles, mixed, z, cell; ring).
  rewrite E. set (ff := only (forgotten r) _) in *. unfold only in *. destruct (trunk k).
  - setoid_replace (dsdn f r c / dt k * (cell k z r c - cell k (lCt d) r c)) with (dsdn f r c / dt k * (cell k x r c - cell k (lCt d) r c) + dsdn f r c / dt k * cell k dx r c) by (unfold z, cell; ring).
    lra.
  - lra.
Qed.
End Law.
