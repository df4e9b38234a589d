(** The system of the solvers 'pieter' and 'steadystatepieter' has one solution, which is not negative for a non-negative right hand side. *)
From Coq Require Import QArith Lia Lqa List Bool Arith Setoid.
From Verif Require Import Base Num Utils_Model Solver_Model Solver_Spec Linear Solver_Proofs Solver_Iter Pieter_Model Pieter_Spec Pieter_Proofs Pieter_Coefs Pieter_Balance.
Import ListNotations.
Open Scope Q_scope.

(** Only the rows where the solution would be negative need to be looked at. *)
Lemma monotone_partial n A v x : offdiag_nonpos n A -> columns_positive n A v -> (forall i, (i < n)%nat -> x i < 0 -> 0 <= mulv n A x i) ->
  forall i, (i < n)%nat -> 0 <= x i.
Proof.
  intros HZ [Hv Hc] Hy k Hk. destruct (Qlt_le_dec (x k) 0) as [Hneg|]; [|assumption]. exfalso.
  set (s := fun i => if Qltb (x i) 0 then v i else 0).
  assert (H1 : 0 <= sumn n (fun i => s i * mulv n A x i)).
  { apply sumn_nonneg; intros i Hi. unfold s. destruct (Qltb_spec (x i) 0). apply mul_nn. apply Qlt_le_weak, Hv, Hi. apply Hy; assumption. lra. }
  assert (H2 : sumn n (fun i => s i * mulv n A x i) == sumn n (fun j => x j * sumn n (fun i => s i * A i j))).
  { rewrite (sumn_ext n _ (fun i => sumn n (fun j => x j * (s i * A i j)))).
    - rewrite sumn_swap. apply sumn_ext. intros. rewrite sumn_scale. reflexivity.
    - intros. unfold mulv. rewrite <- sumn_scale. apply sumn_ext. intros. ring. }
  assert (H3 : sumn n (fun j => x j * sumn n (fun i => s i * A i j)) < sumn n (fun _ => 0)).
  { assert (Hin : forall j, (j < n)%nat -> x j < 0 -> 0 < sumn n (fun i => s i * A i j)).
    { intros j Hj Hx. eapply Qlt_le_trans; [apply (Hc j Hj)|]. apply sumn_le. intros i Hi. unfold s. destruct (Qltb_spec (x i) 0). lra.
      assert (Hij : i <> j) by (intros ->; lra). specialize (HZ i j Hi Hj Hij). specialize (Hv i Hi). pose proof (mul_np (v i) (A i j)). lra. }
    apply (sumn_lt _ _ _ k Hk).
    - cbn beta. apply mul_pn. exact Hneg. apply Hin; assumption.
    - intros j Hj. destruct (Qlt_le_dec (x j) 0) as [Hx|Hx].
      + apply Qlt_le_weak, mul_pn. exact Hx. apply Hin; assumption.
      + apply mul_np. exact Hx. rewrite <- (sumn_zero n (fun _ => 0)) by reflexivity. apply sumn_le. intros i Hi. unfold s.
        destruct (Qltb_spec (x i) 0). assert (i <> j) by (intros ->; lra). apply mul_np. apply Qlt_le_weak, Hv, Hi. apply HZ; assumption. lra. }
  rewrite <- H2, (sumn_zero n (fun _ => 0)) in H3 by reflexivity. lra.
Qed.

(** A number large enough for all rows. *)
Lemma large (K : nat -> Q) m n : 0 < m -> exists B, 1 <= B /\ forall r, (r <= n)%nat -> K r < B * m.
Proof.
  intros Hm. assert (P : forall q, exists B, 1 <= B /\ q < B * m).
  { intros q. exists (1 + qmax q 0 / m). assert (0 <= qmax q 0 / m) by (apply mul_nn; [unfold qmax; destruct (Qle_bool_spec q 0); lra | apply Qlt_le_weak, Qinv_lt_0_compat, Hm]).
    split. lra. setoid_replace ((1 + qmax q 0 / m) * m) with (m + qmax q 0) by (field; lra). unfold qmax. destruct (Qle_bool_spec q 0); lra. }
  induction n as [|n [B [H1 H2]]].
  - destruct (P (K 0%nat)) as (B & H1 & H2). exists B. split. exact H1. intros r Hr. assert (r = 0%nat) by lia. subst r. exact H2.
  - destruct (P (K (S n))) as (B' & H1' & H2'). exists (B + B'). split. lra.
    assert (0 <= B * m) by (apply mul_nn; lra). assert (0 <= B' * m) by (apply mul_nn; lra).
    intros r Hr. setoid_replace ((B + B') * m) with (B * m + B' * m) by ring. destruct (Nat.eq_dec r (S n)) as [->|]. lra. specialize (H2 r ltac:(lia)). lra.
Qed.

Section Unique.
Variable k : pcfg.
Variable f : flow.
Hypothesis Hw : workable k.
Hypothesis Hrect : rectangular k f.
Hypothesis Hknown : known_ends k.
Hypothesis Hside : sideways_fine k f.
Lemma Hny : (ny k <> 1)%nat. Proof. exact (proj1 Hw). Qed.
Lemma Hnx : (1 <= nx k)%nat. Proof. exact (proj1 (proj2 Hw)). Qed.
Lemma Hlat : lateral k = Circular. Proof. exact (proj2 (proj2 Hknown)). Qed.
Notation co := (coefs k f).
Notation al := (implicitness k).
Notation vs := (speed_s k f).
Notation vn := (speed_n k f).

Lemma al_range : 0 <= al <= 1.
Proof. pose proof Hw as (_ & _ & _ & _ & H). unfold implicitness. destruct (trunk k); lra. Qed.
Lemma free_dec c : {free_column k c} + {~ free_column k c}.
Proof.
  unfold free_column. assert (D : forall a b : boundary, {a = b} + {a <> b}) by (intros [] []; first [left; reflexivity | right; discriminate]).
  destruct (Nat.eq_dec c 0), (D (offshore k) Constant), (Nat.eq_dec c (nx k)), (D (onshore k) Constant); first [left; tauto | right; tauto].
Qed.
Lemma not_free c : ~ free_column k c -> c = 0%nat /\ offshore k = Constant \/ c = nx k /\ onshore k = Constant.
Proof.
  unfold free_column. assert (D : forall a b : boundary, {a = b} + {a <> b}) by (intros [] []; first [left; reflexivity | right; discriminate]).
  destruct (Nat.eq_dec c 0), (D (offshore k) Constant), (Nat.eq_dec c (nx k)), (D (onshore k) Constant); tauto.
Qed.
Lemma fixed_ended r c : ~ free_column k c -> ended k f r c = fixed.
Proof.
  pose proof Hnx as Hnx. clear Hknown. intros H. unfold ended, with_onshore, with_offshore, free_column in *. destruct (Nat.eqb_spec c 0) as [E0|E0], (Nat.eqb_spec c (nx k)) as [E1|E1]; try lia.
  - destruct (offshore k); try reflexivity; exfalso; apply H; split; intros []; congruence.
  - destruct (onshore k); try reflexivity; exfalso; apply H; split; intros []; congruence.
Qed.
Lemma fixed_coefs r c : (r <= ny k)%nat -> (c <= nx k)%nat -> ~ free_column k c ->
  a0 (co r c) == 1 - only (Nat.eqb r 0) (ds f r c * neg (vn 0%nat c) * al) + only (Nat.eqb r (ny k)) (ds f r c * pos (vn 0%nat c) * al) /\
  am1 (co r c) == 0 /\ ap1 (co r c) == 0 /\ amx (co r c) == - only (Nat.eqb r 0) (ds f r c * pos (vn 0%nat c) * al) /\
  apx (co r c) == only (Nat.eqb r (ny k)) (ds f r c * neg (vn 0%nat c) * al).
Proof.
  intros Hr Hc F. destruct (lateral_coefs k f Hlat r c) as (B0 & B1 & B2 & B3 & B4).
  rewrite (fixed_ended r c F) in *. cbn [a0 am1 ap1 amx apx fixed] in *.
  assert (V : vn (S (ny k)) c == vn 0%nat c) by (rewrite (vn_high k f Hnx Hlat _ c (le_n _)), (vn_low k f Hnx Hlat 0%nat c (Nat.le_0_l _)); unfold row_down; rewrite Nat.eqb_refl; cbn [row_up]; reflexivity).
  rewrite B0, B1, B2, B3, B4. unfold only. destruct (Nat.eqb r (ny k)), (Nat.eqb r 0); rewrite ?V; repeat split; ring.
Qed.

Lemma area_pos r c : (r <= ny k)%nat -> (c <= nx k)%nat -> 0 < dsdn f r c /\ 0 < ds f r c /\ 0 < dn f r c.
Proof. intros Hr Hc. destruct (Hrect r c Hr Hc) as (A & _ & B & _). unfold dsdn. pose proof (mul_pos _ _ A B). tauto. Qed.
(** The part of the diagonal that is always there. *)
Definition holds (r c : nat) : Q := only (trunk k) (dsdn f r c / dt k) + dsdn f r c / T k * al.
Lemma holds_pos r c : (r <= ny k)%nat -> (c <= nx k)%nat -> 0 < holds r c.
Proof.
  intros Hr Hc. destruct (area_pos r c Hr Hc) as (A & _ & _). pose proof Hw as (_ & _ & Hdt & HT & Ha). unfold holds, implicitness.
  assert (0 < dsdn f r c / dt k) by (apply mul_pos; [exact A | apply Qinv_lt_0_compat, Hdt]).
  assert (0 < dsdn f r c / T k) by (apply mul_pos; [exact A | apply Qinv_lt_0_compat, HT]).
  destruct (trunk k); cbn [only]. assert (0 <= dsdn f r c / T k * alpha k) by (apply mul_nn; lra). lra. lra.
Qed.
Lemma holds_row r c : (r <= ny k)%nat -> (c <= nx k)%nat -> holds r c == holds 0%nat c.
Proof.
  intros Hr Hc. destruct (Hrect r c Hr Hc) as (_ & A & _ & B). destruct (Hrect 0%nat c (Nat.le_0_l _) Hc) as (_ & _ & _ & B').
  unfold holds, dsdn. destruct (trunk k); cbn [only]; rewrite A, B, B'; reflexivity.
Qed.

Lemma npos : offdiag_nonpos (cells k) (pmatrix k f).
Proof.
  apply (poffdiag k f Hny Hnx). intros r c Hr Hc. pose proof al_range as [Ha _]. destruct (area_pos r c Hr Hc) as (_ & Ds & Dn).
  assert (P : forall D v, 0 < D -> 0 <= D * pos v * al) by (intros D v HD; pose proof (pos_nn v); apply mul_nn; [apply mul_nn; lra | exact Ha]).
  assert (N : forall D v, 0 < D -> D * neg v * al <= 0) by (intros D v HD; pose proof (neg_np v); assert (D * neg v <= 0) by (apply mul_np; lra); rewrite Qmult_comm; apply mul_np; assumption).
  destruct (free_dec c) as [F|F].
  - destruct (free_coefs k f Hnx Hlat r c Hr Hc F) as (_ & -> & -> & -> & ->).
    pose proof (P _ (vs r c) Dn). pose proof (N _ (vs r (S c)) Dn). pose proof (P _ (vn r c) Ds). pose proof (N _ (vn (S r) c) Ds).
    unfold only. destruct (lo k c), (hi k c); repeat split; lra.
  - destruct (fixed_coefs r c Hr Hc F) as (_ & -> & -> & -> & ->). pose proof (P _ (vn 0%nat c) Ds). pose proof (N _ (vn 0%nat c) Ds).
    unfold only. destruct (Nat.eqb r 0), (Nat.eqb r (ny k)); repeat split; lra.
Qed.

Lemma neg_same r c : (r <= ny k)%nat -> (c <= nx k)%nat -> neg (vn (S r) c) == neg (vn r c).
Proof.
  intros Hr Hc. pose proof (row_down_le k Hnx r Hr) as Hd. pose proof (row_up_le k Hnx r Hr) as Hu. rewrite (vn_high k f Hnx Hlat r c Hr), (vn_low k f Hnx Hlat r c Hr). destruct Hside as [H|H].
  - rewrite (H r c Hr Hc), (H _ c Hd Hc), (H _ c Hu Hc). reflexivity.
  - pose proof (H r c (conj Hr Hc)). pose proof (H _ c (conj Hd Hc)). pose proof (H _ c (conj Hu Hc)). rewrite !neg_pos0. reflexivity.
    apply Qle_shift_div_l; lra. apply Qle_shift_div_l; lra.
Qed.
(** Weights of the rows: heavier at ends that their neighbours use without giving anything back. *)
Definition heavy (B : Q) (r c : nat) : Q :=
  if Nat.eqb c 0 && negb (beq (offshore k) Flux) || Nat.eqb c (nx k) && negb (beq (onshore k) Flux) then
    if free_dec c then B else if Nat.eqb r (ny k) then B * (1 + ds f r c * (pos (vn 0%nat c) - neg (vn 0%nat c)) * al) else B
  else 1.
Definition burden (r : nat) : Q := dn f r 0%nat * pos (vs r 1%nat) * al - dn f r (nx k) * neg (vs r (nx k)) * al.
Lemma burden_parts r : (r <= ny k)%nat -> 0 <= dn f r 0%nat * pos (vs r 1%nat) * al <= burden r /\ 0 <= - (dn f r (nx k) * neg (vs r (nx k)) * al) <= burden r.
Proof.
  intros Hr. pose proof al_range as [Ha _]. destruct (area_pos r 0%nat Hr (Nat.le_0_l _)) as (_ & _ & D0). destruct (area_pos r (nx k) Hr (le_n _)) as (_ & _ & D1). unfold burden.
  assert (0 <= dn f r 0%nat * pos (vs r 1%nat) * al) by (apply mul_nn; [apply mul_nn; [lra | apply pos_nn] | exact Ha]).
  assert (0 <= dn f r (nx k) * - neg (vs r (nx k)) * al) by (apply mul_nn; [apply mul_nn; [lra | pose proof (neg_np (vs r (nx k))); lra] | exact Ha]).
  lra.
Qed.

Lemma heavy_inside B r c : c <> 0%nat -> c <> nx k -> heavy B r c = 1.
Proof. intros H H'. unfold heavy. destruct (Nat.eqb_spec c 0), (Nat.eqb_spec c (nx k)); try lia. reflexivity. Qed.
(** What a neighbour takes. *)
Lemma am1_bound B r c : (r <= ny k)%nat -> (S c <= nx k)%nat -> - (dn f r c * pos (vs r (S c)) * al) <= heavy B r (S c) * am1 (co r (S c)).
Proof.
  intros Hr Hc. pose proof al_range as [Ha _]. destruct (area_pos r c Hr ltac:(lia)) as (_ & _ & Dn). 
  assert (P : 0 <= dn f r c * pos (vs r (S c)) * al) by (pose proof (pos_nn (vs r (S c))); apply mul_nn; [apply mul_nn; lra | exact Ha]).
  destruct (free_dec (S c)) as [F|F].
  - destruct (free_coefs k f Hnx Hlat r (S c) Hr Hc F) as (_ & -> & _). rewrite (dn_eq k f Hrect r (S c) c) by lia. unfold lo, heavy. change (Nat.leb 1 (S c)) with true. change (Nat.eqb (S c) 0) with false. cbn [andb orb].
    destruct (Nat.eqb_spec (S c) (nx k)) as [E|E]; cbn [andb]; [|cbn [negb only]; lra]. destruct (beq (onshore k) Gradient) eqn:G. cbn [negb only]. lra.
    destruct (beq (onshore k) Flux) eqn:G'. cbn [negb only]. lra. exfalso. destruct Hknown as (_ & [K|[K|K]] & _); [rewrite K in G'; discriminate | exact (proj2 F (conj E K)) | rewrite K in G; discriminate].
  - destruct (fixed_coefs r (S c) Hr Hc F) as (_ & -> & _). lra.
Qed.
Lemma ap1_bound B r c : (r <= ny k)%nat -> (1 <= c <= nx k)%nat -> dn f r c * neg (vs r c) * al <= heavy B r (c - 1)%nat * ap1 (co r (c - 1)%nat).
Proof.
  intros Hr Hc. pose proof al_range as [Ha _]. destruct (area_pos r c Hr ltac:(lia)) as (_ & _ & Dn). destruct c as [|c]; [lia|]. replace (S c - 1)%nat with c by lia.
  assert (P : 0 <= dn f r (S c) * - neg (vs r (S c)) * al) by (pose proof (neg_np (vs r (S c))); apply mul_nn; [apply mul_nn; lra | exact Ha]).
  destruct (free_dec c) as [F|F].
  - destruct (free_coefs k f Hnx Hlat r c Hr ltac:(lia) F) as (_ & _ & -> & _). rewrite (dn_eq k f Hrect r c (S c)) by lia. unfold hi, heavy.
    destruct (Nat.ltb_spec c (nx k)) as [L|L]; [|lia]. destruct (Nat.eqb_spec c (nx k)) as [E'|E']; [lia|]. cbn [andb]. destruct (Nat.eqb_spec c 0) as [E|E]; cbn [andb orb]; [|cbn [negb only]; lra].
    destruct (beq (offshore k) Gradient) eqn:G. cbn [negb only]. lra.
    destruct (beq (offshore k) Flux) eqn:G'. cbn [negb only orb]. lra. exfalso. destruct Hknown as ([K|[K|K]] & _ & _); [rewrite K in G'; discriminate | exact (proj1 F (conj E K)) | rewrite K in G; discriminate].
  - destruct (fixed_coefs r c Hr ltac:(lia) F) as (_ & _ & -> & _). lra.
Qed.

Lemma columns_pos B : 1 <= B -> (forall r, (r <= ny k)%nat -> burden r < B /\ burden r < B * holds 0%nat 0%nat /\ burden r < B * holds 0%nat (nx k)) ->
  columns_positive (cells k) (pmatrix k f) (flat k (heavy B)).
Proof.
  intros HB Hbig. pose proof al_range as [Ha _].
  assert (Hs : forall r c, (r <= ny k)%nat -> (c <= nx k)%nat -> 0 <= ds f r c * pos (vn 0%nat c) * al /\ 0 <= - (ds f r c * neg (vn 0%nat c) * al)).
  { intros r c Hr Hc. destruct (area_pos r c Hr Hc) as (_ & Ds & _).
    assert (0 <= ds f r c * pos (vn 0%nat c) * al) by (pose proof (pos_nn (vn 0%nat c)); apply mul_nn; [apply mul_nn; lra | exact Ha]).
    assert (0 <= ds f r c * - neg (vn 0%nat c) * al) by (pose proof (neg_np (vn 0%nat c)); apply mul_nn; [apply mul_nn; lra | exact Ha]). lra. }
  split.
  - intros i Hi. apply (flat_all k (fun q => 0 < q)); [|exact Hi]. intros r c Hr Hc. destruct (Hs r c Hr Hc) as [S1 S2]. unfold heavy.
    destruct (_ || _); [|reflexivity]. destruct (free_dec c); [lra|]. destruct (Nat.eqb r (ny k)); [|lra].
    apply mul_pos. lra. setoid_replace (ds f r c * (pos (vn 0%nat c) - neg (vn 0%nat c)) * al) with (ds f r c * pos (vn 0%nat c) * al + - (ds f r c * neg (vn 0%nat c) * al)) by ring. lra.
  - intros j Hj. destruct (rc_of k j Hj) as (r & c & Hr & Hc & ->). rewrite (pcolumn k f Hny Hnx (heavy B) r c Hr Hc). pose proof Hnx as HN. pose proof Hny as HM.
    assert (L1 : - only (Nat.ltb c (nx k)) (dn f r c * pos (vs r (S c)) * al) <= if Nat.ltb c (nx k) then heavy B r (S c) * am1 (co r (S c)) else 0).
    { destruct (Nat.ltb_spec c (nx k)); cbn [only]. apply am1_bound; [exact Hr | lia]. lra. }
    assert (L2 : only (Nat.leb 1 c) (dn f r c * neg (vs r c) * al) <= if Nat.leb 1 c then heavy B r (c - 1)%nat * ap1 (co r (c - 1)%nat) else 0).
    { destruct (Nat.leb_spec 1 c); cbn [only]. apply ap1_bound; [exact Hr | lia]. lra. }
    set (n1 := if Nat.ltb c (nx k) then heavy B r (S c) * am1 (co r (S c)) else 0) in *. set (n2 := if Nat.leb 1 c then heavy B r (c - 1)%nat * ap1 (co r (c - 1)%nat) else 0) in *.
    destruct (burden_parts r Hr) as [B1 B2]. destruct (Hbig r Hr) as (C0 & C1 & C2).
    destruct (free_dec c) as [F|F].
    + (* a free column *)
      set (h := heavy B r c). assert (Hh : forall r', heavy B r' c = h) by (intros r'; unfold h, heavy; destruct (_ || _); [|reflexivity]; destruct (free_dec c); [reflexivity | contradiction]).
      rewrite !Hh. assert (H1 : 1 <= h) by (unfold h, heavy; destruct (_ || _); [destruct (free_dec c); [exact HB | contradiction] | lra]).
      assert (Lat : h * a0 (co r c) - h * along k f r c + (if Nat.eqb (ny k) 0 then 0 else h * amx (co (next_row k r) c) + h * apx (co r c)) >= 0).
      { destruct (free_coefs k f Hnx Hlat r c Hr Hc F) as (A0 & _ & _ & _ & A4). destruct (free_coefs k f Hnx Hlat (next_row k r) c (row_down_le k Hnx r Hr) Hc F) as (_ & _ & _ & A3 & _).
        destruct (area_pos r c Hr Hc) as (_ & Ds & _). rewrite A0. destruct (Nat.eqb_spec (ny k) 0) as [Hz|Hz].
        - assert (0 <= h * (ds f r c * - neg (vn r c) * al)) by (pose proof (neg_np (vn r c)); apply mul_nn; [lra | apply mul_nn; [apply mul_nn; lra | exact Ha]]).
          assert (0 <= h * (ds f r c * pos (vn (S r) c) * al)) by (pose proof (pos_nn (vn (S r) c)); apply mul_nn; [lra | apply mul_nn; [apply mul_nn; lra | exact Ha]]). lra.
        - rewrite A3, A4. change (next_row k r) with (row_down k r). rewrite (ds_eq k f Hrect (row_down k r) r c (row_down_le k Hnx r Hr) Hr Hc).
          assert (V : vn (row_down k r) c == vn (S r) c) by (rewrite (vn_low k f Hnx Hlat _ c (row_down_le k Hnx r Hr)), (vn_high k f Hnx Hlat r c Hr), (up_down k r Hr); reflexivity).
          rewrite V, (neg_same r c Hr Hc). apply Qle_lteq. right. ring. }
      set (lat := if Nat.eqb (ny k) 0 then 0 else h * amx (co (next_row k r) c) + h * apx (co r c)) in *.
      assert (Main : 0 < h * along k f r c + n1 + n2); [|lra].
      unfold along. fold (holds r c). pose proof (holds_pos r c Hr Hc) as HP. assert (HP' : holds r c <= h * holds r c) by (assert (0 <= (h - 1) * holds r c) by (apply mul_nn; lra); lra).
      destruct (Nat.eq_dec c 0) as [E|E]; [|destruct (Nat.eq_dec c (nx k)) as [E'|E']].
      * subst c. unfold lo, hi. change (Nat.leb 1 0) with false in *. destruct (Nat.ltb_spec 0 (nx k)); [|lia]. change (Nat.eqb 0 0) with true. cbn [andb only] in *.
        unfold h, heavy in *. change (Nat.eqb 0 0) with true in *. destruct (Nat.eqb_spec 0 (nx k)); [lia|]. cbn [andb orb] in *.
        destruct (proj1 Hknown) as [K|[K|K]]; rewrite K in *; cbn [beq negb orb only] in *.
        -- lra.
        -- exfalso. exact (proj1 F (conj eq_refl K)).
        -- destruct (free_dec 0); [|contradiction]. rewrite (holds_row r 0%nat Hr ltac:(lia)) in *. lra.
      * subst c. unfold lo, hi. rewrite Nat.ltb_irrefl in *. destruct (Nat.leb_spec 1 (nx k)); [|lia]. rewrite Nat.eqb_refl. cbn [andb only] in *.
        unfold h, heavy in *. rewrite Nat.eqb_refl in *. destruct (Nat.eqb_spec (nx k) 0); [lia|]. cbn [andb orb] in *.
        destruct (proj1 (proj2 Hknown)) as [K|[K|K]]; rewrite K in *; cbn [beq negb orb only] in *.
        -- lra.
        -- exfalso. exact (proj2 F (conj eq_refl K)).
        -- destruct (free_dec (nx k)); [|contradiction]. rewrite (holds_row r (nx k) Hr ltac:(lia)) in *. lra.
      * unfold h in *. rewrite (heavy_inside B r c E E') in *. unfold lo, hi. destruct (Nat.ltb_spec c (nx k)); [|lia]. destruct (Nat.leb_spec 1 c); [|lia].
        destruct (Nat.eqb_spec c 0); [lia|]. destruct (Nat.eqb_spec c (nx k)); [lia|]. cbn [andb negb only] in *. lra.
    + (* a column with given concentrations *)
      assert (Hn : - burden r <= n1 + n2).
      { assert (E : c = 0%nat \/ c = nx k) by (destruct (not_free c F); tauto). destruct E as [-> | ->].
        - change (Nat.leb 1 0) with false in *. destruct (Nat.ltb_spec 0 (nx k)); [|lia]. cbn [only] in *. lra.
        - rewrite Nat.ltb_irrefl in *. destruct (Nat.leb_spec 1 (nx k)); [|lia]. cbn [only] in *. lra. }
      assert (Hh : forall r', heavy B r' c = if Nat.eqb r' (ny k) then B * (1 + ds f r' c * (pos (vn 0%nat c) - neg (vn 0%nat c)) * al) else B).
      { intros r'. unfold heavy. destruct (free_dec c); [contradiction|]. replace (_ || _) with true. reflexivity. symmetry.
        assert (E : c = 0%nat /\ offshore k = Constant \/ c = nx k /\ onshore k = Constant) by (exact (not_free c F)).
        destruct E as [[-> ->] | [-> ->]]; rewrite Nat.eqb_refl; cbn [beq negb andb orb]; [reflexivity | apply orb_true_r]. }
      destruct (Hs r c Hr Hc) as [S1 S2]. destruct (fixed_coefs r c Hr Hc F) as (A0 & _ & _ & _ & A4).
      destruct (fixed_coefs (next_row k r) c (row_down_le k Hnx r Hr) Hc F) as (_ & _ & _ & A3 & _).
      assert (Main : B <= heavy B r c * a0 (co r c) + (if Nat.eqb (ny k) 0 then 0 else heavy B (next_row k r) c * amx (co (next_row k r) c) + heavy B (prev_row k r) c * apx (co r c))); [|lra].
      rewrite A0. set (p := ds f r c * pos (vn 0%nat c) * al) in *. set (q := ds f r c * neg (vn 0%nat c) * al) in *.
      assert (Hh' : heavy B r c == if Nat.eqb r (ny k) then B * (1 + p - q) else B) by (rewrite Hh; destruct (Nat.eqb r (ny k)); [unfold p, q; ring | reflexivity]).
      rewrite Hh'. destruct (Nat.eqb_spec (ny k) 0) as [Hz|Hz].
      * assert (r = 0%nat) by lia. subst r. rewrite Hz in *. cbn [Nat.eqb only]. assert (0 <= B * ((1 + p - q) * (1 - q + p) - 1)); [|lra].
        apply mul_nn. lra. assert (0 <= (p - q) * (1 - q + p)) by (apply mul_nn; lra). lra.
      * rewrite A3, A4. unfold next_row. destruct (Nat.eqb_spec r (ny k)) as [R|R].
        -- subst r. destruct (Nat.eqb_spec (ny k) 0); [lia|]. cbn [Nat.eqb only]. rewrite !Hh. destruct (Nat.eqb_spec 0 (ny k)); [lia|].
           assert (E : prev_row k (ny k) = (ny k - 1)%nat) by (unfold prev_row; destruct (ny k); lia). rewrite E. destruct (Nat.eqb_spec (ny k - 1) (ny k)); [lia|].
           rewrite (ds_eq k f Hrect 0%nat (ny k) c) by lia. fold p q. assert (0 <= B * ((1 + p - q) * p)) by (apply mul_nn; [lra | apply mul_nn; lra]). lra.
        -- cbn [Nat.eqb only]. destruct (Nat.eqb_spec r 0) as [R0|R0]; cbn [only].
           ++ assert (0 <= B * - q) by (apply mul_nn; lra). lra.
           ++ lra.
Qed.
Lemma weights_exist : exists v, columns_positive (cells k) (pmatrix k f) v.
Proof.
  destruct (large burden 1 (ny k) ltac:(lra)) as (B1 & L1 & H1). destruct (large burden (holds 0%nat 0%nat) (ny k) (holds_pos 0%nat 0%nat ltac:(lia) ltac:(lia))) as (B2 & L2 & H2).
  destruct (large burden (holds 0%nat (nx k)) (ny k) (holds_pos 0%nat (nx k) ltac:(lia) ltac:(lia))) as (B3 & L3 & H3).
  pose proof (holds_pos 0%nat 0%nat ltac:(lia) ltac:(lia)) as P2. pose proof (holds_pos 0%nat (nx k) ltac:(lia) ltac:(lia)) as P3.
  exists (flat k (heavy (B1 + B2 + B3))). apply columns_pos. lra. intros r Hr. specialize (H1 r Hr). specialize (H2 r Hr). specialize (H3 r Hr).
  set (m2 := holds 0%nat 0%nat) in *. set (m3 := holds 0%nat (nx k)) in *.
  assert (0 <= B1 * m2) by (apply mul_nn; lra). assert (0 <= B3 * m2) by (apply mul_nn; lra). assert (0 <= B1 * m3) by (apply mul_nn; lra). assert (0 <= B2 * m3) by (apply mul_nn; lra).
  setoid_replace ((B1 + B2 + B3) * m2) with (B1 * m2 + B2 * m2 + B3 * m2) by ring. setoid_replace ((B1 + B2 + B3) * m3) with (B1 * m3 + B2 * m3 + B3 * m3) by ring. repeat split; lra.
Qed.
Lemma one y : exists x, is_solution (number_of_cells k) (pmatrix k f) y x /\
  forall z, is_solution (number_of_cells k) (pmatrix k f) y z -> forall i, (i < number_of_cells k)%nat -> z i == x i.
Proof.
  replace (number_of_cells k) with (cells k) by (unfold number_of_cells, cells, width; lia). destruct weights_exist as [v Hv]. destruct (one_solution (cells k) (pmatrix k f) v y npos Hv) as (x & Hx & Hu).
  exists x. split. apply solves_iff, Hx. intros z Hz. apply Hu, solves_iff, Hz.
Qed.
End Unique.
