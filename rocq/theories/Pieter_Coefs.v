(** The coefficients of the matrix with connected lateral borders. *)
From Coq Require Import QArith Lia Lqa List Bool Arith Setoid.
From Verif Require Import Base Num Utils_Model Solver_Model Solver_Spec Linear Solver_Proofs Pieter_Model Pieter_Spec Pieter_Proofs.
Import ListNotations.
Open Scope Q_scope.

(** * The coefficients with connected lateral borders *)
Definition pos (v : Q) : Q := v * upw v.
Definition neg (v : Q) : Q := v * (1 - upw v).
Lemma pos_nn v : 0 <= pos v.
Proof. unfold pos. destruct (upw_cases v) as [[H ->]|[H ->]]; lra. Qed.
Lemma neg_np v : neg v <= 0.
Proof. unfold neg. destruct (upw_cases v) as [[H ->]|[H ->]]; lra. Qed.
Lemma pos_max v : qmax v 0 == pos v.
Proof. unfold pos, qmax. destruct (upw_cases v) as [[H ->]|[H ->]]; destruct (Qle_bool_spec v 0); lra. Qed.
Lemma neg_min v : qmin v 0 == neg v.
Proof. unfold neg, qmin. destruct (upw_cases v) as [[H ->]|[H ->]]; destruct (Qle_bool_spec v 0); lra. Qed.
Lemma pos_compat a b : a == b -> pos a == pos b.
Proof. intros H. unfold pos. rewrite (upw_compat _ _ H), H. reflexivity. Qed.
Lemma neg_compat a b : a == b -> neg a == neg b.
Proof. intros H. unfold neg. rewrite (upw_compat _ _ H), H. reflexivity. Qed.
#[export] Instance pos_proper : Proper (Qeq ==> Qeq) pos. Proof. intros a b H. apply pos_compat, H. Qed.
#[export] Instance neg_proper : Proper (Qeq ==> Qeq) neg. Proof. intros a b H. apply neg_compat, H. Qed.
Lemma neg_pos0 v : 0 <= v -> neg v == 0.
Proof. intros. unfold neg. destruct (upw_cases v) as [[H' ->]|[H' ->]]; lra. Qed.
Lemma pos_neg_sum v : pos v + neg v == v.
Proof. unfold pos, neg. ring. Qed.
Lemma only_0 b q : q == 0 -> only b q == 0.
Proof. intros. destruct b; cbn [only]; lra. Qed.
#[export] Instance only_proper b : Proper (Qeq ==> Qeq) (only b). Proof. intros p q H. destruct b; [exact H | reflexivity]. Qed.
Lemma beq_spec a b : beq a b = true <-> a = b.
Proof. destruct a, b; cbn; split; congruence. Qed.

Section Circular.
Variable k : pcfg.
Variable f : flow.
Hypothesis Hnx : (1 <= nx k)%nat.
Hypothesis Hlat : lateral k = Circular.
Notation co := (coefs k f).
Notation al := (implicitness k).
Notation vs := (speed_s k f).
Notation vn := (speed_n k f).
Definition lo (c : nat) : bool := Nat.leb 1 c && negb (Nat.eqb c (nx k) && beq (onshore k) Gradient).
Definition hi (c : nat) : bool := Nat.ltb c (nx k) && negb (Nat.eqb c 0 && beq (offshore k) Gradient).
(** After the ends. *)
Definition ended (r c : nat) : coef := with_onshore k f r c (with_offshore k f r c (inner k f r c)).
Definition along (r c : nat) : Q := only (trunk k) (dsdn f r c / dt k) + dsdn f r c / T k * al - only (lo c) (dn f r c * neg (vs r c) * al) + only (hi c) (dn f r c * pos (vs r (S c)) * al).
Lemma free_ended r c : (c <= nx k)%nat -> free_column k c ->
  a0 (ended r c) == along r c - only (Nat.leb 1 r) (ds f r c * neg (vn r c) * al) + only (Nat.ltb r (ny k)) (ds f r c * pos (vn (S r) c) * al) /\
  am1 (ended r c) == - only (lo c) (dn f r c * pos (vs r c) * al) /\ ap1 (ended r c) == only (hi c) (dn f r c * neg (vs r (S c)) * al) /\
  amx (ended r c) == - only (Nat.leb 1 r) (ds f r c * pos (vn r c) * al) /\ apx (ended r c) == only (Nat.ltb r (ny k)) (ds f r c * neg (vn (S r) c) * al).
Proof.
  intros Hc [F1 F2]. unfold ended, with_onshore, with_offshore, along, lo, hi, pos, neg.
  set (A := only (trunk k) (dsdn f r c / dt k)). set (B := dsdn f r c / T k * al).
  destruct (Nat.eqb_spec c 0) as [E0|E0], (Nat.eqb_spec c (nx k)) as [E1|E1]; try lia; cbn [andb negb].
  - destruct (Nat.ltb c (nx k)) eqn:L1; [|apply Nat.ltb_ge in L1; lia]. subst c. change (Nat.leb 1 0) with false. cbn [andb].
    destruct (beq (offshore k) Gradient) eqn:Eo; cbn [negb only].
    + apply beq_spec in Eo. rewrite Eo. cbn [a0 am1 ap1 amx apx]. unfold inner. cbv zeta. cbn [a0 am1 ap1 amx apx]. rewrite L1. change (Nat.leb 1 0) with false. cbn [only]. fold A B.
      destruct (Nat.leb 1 r), (Nat.ltb r (ny k)); cbn [only]; repeat split; ring.
    + assert (Eo' : forall X : coef, match offshore k with Constant => fixed | Gradient => X | _ => inner k f r 0 end = inner k f r 0).
      { intros X. destruct (offshore k); try reflexivity; [exfalso; apply F1; auto | discriminate]. }
      rewrite Eo'. unfold inner. cbv zeta. cbn [a0 am1 ap1 amx apx]. rewrite L1. change (Nat.leb 1 0) with false. cbn [only]. fold A B.
      destruct (Nat.leb 1 r), (Nat.ltb r (ny k)); cbn [only]; repeat split; ring.
  - destruct (Nat.ltb c (nx k)) eqn:L1; [apply Nat.ltb_lt in L1; lia|]. destruct (Nat.leb 1 c) eqn:L2; [|apply Nat.leb_gt in L2; lia]. cbn [andb].
    destruct (beq (onshore k) Gradient) eqn:Eo; cbn [negb only].
    + apply beq_spec in Eo. rewrite Eo. cbn [a0 am1 ap1 amx apx]. unfold inner. cbv zeta. cbn [a0 am1 ap1 amx apx]. rewrite L1, L2. cbn [only]. fold A B. rewrite <- E1.
      destruct (Nat.leb 1 r), (Nat.ltb r (ny k)); cbn [only]; repeat split; ring.
    + assert (Eo' : forall X : coef, match onshore k with Constant => fixed | Gradient => X | _ => inner k f r c end = inner k f r c).
      { intros X. destruct (onshore k); try reflexivity; [exfalso; apply F2; auto | discriminate]. }
      rewrite Eo'. unfold inner. cbv zeta. cbn [a0 am1 ap1 amx apx]. rewrite L1, L2. cbn [only]. fold A B.
      destruct (Nat.leb 1 r), (Nat.ltb r (ny k)); cbn [only]; repeat split; ring.
  - destruct (Nat.ltb c (nx k)) eqn:L1; [|apply Nat.ltb_ge in L1; lia]. destruct (Nat.leb 1 c) eqn:L2; [|apply Nat.leb_gt in L2; lia]. cbn [andb only].
    unfold inner. cbv zeta. cbn [a0 am1 ap1 amx apx]. rewrite L1, L2. cbn [only]. fold A B. destruct (Nat.leb 1 r), (Nat.ltb r (ny k)); cbn [only]; repeat split; ring.
Qed.
(** The lateral borders. *)
Lemma lateral_coefs r c (e := ended r c) :
  a0 (co r c) == a0 e - only (Nat.eqb r 0) (ds f r c * neg (vn 0%nat c) * al) + only (Nat.eqb r (ny k)) (ds f r c * pos (vn (S (ny k)) c) * al) /\
  am1 (co r c) = am1 e /\ ap1 (co r c) = ap1 e /\ amx (co r c) == amx e - only (Nat.eqb r 0) (ds f r c * pos (vn 0%nat c) * al) /\
  apx (co r c) == apx e + only (Nat.eqb r (ny k)) (ds f r c * neg (vn (S (ny k)) c) * al).
Proof.
  unfold coefs. fold (ended r c). fold e. unfold with_last, with_first. rewrite Hlat. unfold pos, neg.
  destruct (Nat.eqb r (ny k)), (Nat.eqb r 0); cbn [only a0 am1 ap1 amx apx]; repeat split; ring.
Qed.
Lemma free_coefs r c : (r <= ny k)%nat -> (c <= nx k)%nat -> free_column k c ->
  a0 (co r c) == along r c - ds f r c * neg (vn r c) * al + ds f r c * pos (vn (S r) c) * al /\
  am1 (co r c) == - only (lo c) (dn f r c * pos (vs r c) * al) /\ ap1 (co r c) == only (hi c) (dn f r c * neg (vs r (S c)) * al) /\
  amx (co r c) == - (ds f r c * pos (vn r c) * al) /\ apx (co r c) == ds f r c * neg (vn (S r) c) * al.
Proof.
  intros Hr Hc F. destruct (free_ended r c Hc F) as (A0 & A1 & A2 & A3 & A4). destruct (lateral_coefs r c) as (B0 & B1 & B2 & B3 & B4).
  rewrite B0, B1, B2, B3, B4, A0, A1, A2, A3, A4.
  destruct (Nat.eqb_spec r 0) as [R0|R0], (Nat.eqb_spec r (ny k)) as [R1|R1], (Nat.leb_spec 1 r) as [R2|R2], (Nat.ltb_spec r (ny k)) as [R3|R3]; try lia; cbn [only];
  repeat split; try ring.
  all: try (rewrite <- R1; ring). all: try (rewrite R0; ring). all: try (rewrite <- R1, R0; ring).
Qed.
End Circular.
