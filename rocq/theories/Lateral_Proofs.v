(** Uniform fields between lateral borders that are not connected. *)
From Coq Require Import QArith Lia Lqa List Bool Arith Setoid.
From Verif Require Import Base Num Utils_Model Solver_Model Solver_Spec Linear Solver_Proofs Solver_Iter Solver_Balance Solver_Cases Pieter_Model Pieter_Spec Pieter_Proofs Pieter_Coefs Pieter_Balance Pieter_Unique Pieter_Whole Pieter_Outcome Pieter_Uniform Pieter_Cases Lateral_Spec.
Import ListNotations.
Open Scope Q_scope.

Section Borders.
Variable k : pcfg.
Variable f : flow.
Variable d : input.
Variables u v C : Q.
Variables w x : nat -> Q.
Hypothesis Hw : workable k.
Hypothesis Hrect : rectangular k f.
Hypothesis Hb : known_borders k.
Hypothesis Hu : uniform_wind k f u v.
Hypothesis Hs : psaturated k d w x C.
Hypothesis Ho : open_ends k u v.
Hypothesis Hin : carried_in k d C.

Let Hx : (1 <= nx k)%nat := proj1 (proj2 Hw).
Lemma b_mixed r c : (r <= ny k)%nat -> (c <= nx k)%nat -> cell k (mixed k d x) r c == C.
Proof. intros Hr Hc. unfold cell, mixed. destruct Hs as (S1 & _). destruct (S1 _ (in_grid k r c Hr Hc)) as (-> & -> & _). ring. Qed.
Lemma b_us r j : (r <= ny k)%nat -> (j <= S (nx k))%nat -> speed_s k f r j == u.
Proof.
  intros Hr Hj. unfold speed_s. destruct (Nat.eqb_spec j 0). apply Hu; lia. destruct (Nat.eqb_spec j (S (nx k))). apply Hu; lia.
  destruct (Hu r (j - 1)%nat Hr ltac:(lia)) as [-> _]. destruct (Hu r j Hr ltac:(lia)) as [-> _]. ring.
Qed.
Lemma b_un j c : (j <= S (ny k))%nat -> (c <= nx k)%nat -> speed_n k f j c == v.
Proof.
  intros Hj Hc. unfold speed_n. destruct (Nat.eqb_spec j 0); cbn [orb].
  - destruct (beq _ _). destruct (Hu 0%nat c (Nat.le_0_l _) Hc) as [_ ->]. destruct (Hu (ny k) c (le_n _) Hc) as [_ ->]. ring. apply Hu; lia.
  - destruct (Nat.eqb_spec j (S (ny k))). destruct (beq _ _). destruct (Hu 0%nat c (Nat.le_0_l _) Hc) as [_ ->]. destruct (Hu (ny k) c (le_n _) Hc) as [_ ->]. ring. apply Hu; lia.
    destruct (Hu (j - 1)%nat c ltac:(lia) Hc) as [_ ->]. destruct (Hu j c ltac:(lia) Hc) as [_ ->]. ring.
Qed.
Lemma b_fs r j : (r <= ny k)%nat -> (1 <= j <= nx k)%nat -> face_s k f d x r j == C.
Proof.
  intros Hr Hj. unfold face_s. destruct (Nat.eqb_spec j 0); [lia|]. destruct (Nat.eqb_spec j (S (nx k))); [lia|]. cbn [orb]. cbv zeta.
  rewrite (b_mixed r (j - 1)), (b_mixed r j) by lia. ring.
Qed.
Lemma b_fn j c : (1 <= j <= ny k)%nat -> (c <= nx k)%nat -> face_n k f d x j c == C.
Proof.
  intros Hj Hc. unfold face_n. cbv zeta. destruct (Nat.eqb_spec j 0); [lia|]. destruct (Nat.eqb_spec j (S (ny k))); [lia|]. cbn [orb].
  rewrite (b_mixed (j - 1) c), (b_mixed j c) by lia. ring.
Qed.
Lemma b_bed r c : (r <= ny k)%nat -> (c <= nx k)%nat -> - only (trunk k) (dsdn f r c / dt k * (cell k x r c - cell k (lCt d) r c)) + (eroded k f d w x r c - settles k f d x r c) == 0.
Proof.
  intros Hr Hc. destruct Hs as (S1 & _). destruct (S1 _ (in_grid k r c Hr Hc)) as (E1 & E2 & E3 & E4 & E5). pose proof Hw as (_ & _ & _ & HT & _).
  set (a := dsdn f r c / T k). assert (A : 0 <= a) by (destruct (area_pos k f Hrect r c Hr Hc) as (A & _); apply mul_nn; [lra | apply Qlt_le_weak, Qinv_lt_0_compat, HT]).
  assert (ST : settles k f d x r c == a * C) by (unfold settles; rewrite (b_mixed r c Hr Hc); reflexivity).
  assert (UP : uptake k f d w r c == a * C).
  { unfold uptake, cell. fold a. set (j := (r * width k + c)%nat) in *. setoid_replace (w j * implicitness k * Cu d j + (1 - implicitness k) * lw d j * lCu d j) with (implicitness k * (w j * Cu d j) + (1 - implicitness k) * (lw d j * lCu d j)) by ring. rewrite E3, E4. ring. }
  assert (ER : eroded k f d w x r c == a * C).
  { unfold eroded, qmin. assert (0 <= a * mass d (r * width k + c)%nat) by (apply mul_nn; assumption). destruct (Qle_bool_spec (uptake k f d w r c) (available k f d x r c)) as [L|L]. exact UP.
    rewrite UP in L. unfold available in *. fold a in L |- *. rewrite ST in *. unfold cell in *. lra. }
  rewrite ER, ST. unfold only, cell. destruct (trunk k); [rewrite E1, E2|]; ring.
Qed.
(** What is left after the faces of the cell. *)
Lemma b_residual r c : (r <= ny k)%nat -> (c <= nx k)%nat ->
  residual k f d w x r c == only (Nat.leb 1 c) (dn f r c * u * C) - only (Nat.ltb c (nx k)) (dn f r c * u * C) + (only (Nat.leb 1 r) (ds f r c * v * C) - only (Nat.ltb r (ny k)) (ds f r c * v * C)).
Proof.
  intros Hr Hc. unfold residual. rewrite (b_bed r c Hr Hc). unfold only.
  destruct (Nat.leb_spec 1 c); destruct (Nat.ltb_spec c (nx k)); destruct (Nat.leb_spec 1 r); destruct (Nat.ltb_spec r (ny k));
    repeat (first [rewrite (b_us r c) by lia | rewrite (b_us r (S c)) by lia | rewrite (b_un r c) by lia | rewrite (b_un (S r) c) by lia
      | rewrite (b_fs r c) by lia | rewrite (b_fs r (S c)) by lia | rewrite (b_fn r c) by lia | rewrite (b_fn (S r) c) by lia]); ring.
Qed.
(** After the two ends only the lateral wind is left. *)
Lemma b_ends r c : (r <= ny k)%nat -> (c <= nx k)%nat ->
  onshore_side k f d x r c (offshore_side k f d x r c (residual k f d w x r c)) == only (Nat.leb 1 r) (ds f r c * v * C) - only (Nat.ltb r (ny k)) (ds f r c * v * C).
Proof.
  intros Hr Hc. destruct Hb as (K1 & K2 & _). destruct Ho as (O1 & _ & O3). destruct Hs as (_ & S2 & S3).
  assert (Z : v == 0 -> 0 == only (Nat.leb 1 r) (ds f r c * v * C) - only (Nat.ltb r (ny k)) (ds f r c * v * C)) by (intros V; unfold only; destruct (Nat.leb 1 r), (Nat.ltb r (ny k)); rewrite ?V; ring).
  pose proof (b_residual r c Hr Hc) as R. unfold onshore_side, offshore_side. destruct (Nat.eqb_spec c 0) as [->|C0].
  - destruct (Nat.eqb_spec 0 (nx k)); [lia|]. change (Nat.leb 1 0) with false in R. destruct (Nat.ltb_spec 0 (nx k)); [|lia]. change (only true (dn f r 0%nat * u * C)) with (dn f r 0%nat * u * C) in R; change (only false (dn f r 0%nat * u * C)) with 0 in R. destruct K1 as [E|[E|E]]; rewrite E in *.
    + rewrite R, (b_us r 0) by lia. pose proof (S2 eq_refl r Hr) as I. change (at_cell k (Cu0 d) r 0) with (cell k (Cu0 d) r 0) in I.
      setoid_replace (dn f r 0%nat * u * cell k (Cu0 d) r 0 * offshore_flux k) with (dn f r 0%nat * u * (offshore_flux k * cell k (Cu0 d) r 0)) by ring. rewrite I. ring.
    + destruct (trunk k). apply Z, O3. tauto. destruct (S3 eq_refl) as [X _]. rewrite (X eq_refl). apply Z, O3. tauto.
    + rewrite R, (b_us r 1), (b_fs r 1), (dn_eq k f Hrect r 1%nat 0%nat) by lia. ring.
  - destruct (Nat.leb_spec 1 c); [|lia]. destruct (Nat.eqb_spec c (nx k)) as [->|C1].
    + destruct (Nat.ltb_spec (nx k) (nx k)); [lia|]. change (only true (dn f r (nx k) * u * C)) with (dn f r (nx k) * u * C) in R; change (only false (dn f r (nx k) * u * C)) with 0 in R. destruct K2 as [E|[E|E]]; rewrite E in *.
      * congruence.
      * destruct (trunk k). apply Z, O3. tauto. destruct (S3 eq_refl) as [_ X]. rewrite (X eq_refl). apply Z, O3. tauto.
      * rewrite R, (b_us r (nx k)), (b_fs r (nx k)), (dn_eq k f Hrect r (nx k - 1)%nat (nx k)) by lia. ring.
    + destruct (Nat.ltb_spec c (nx k)); [|lia]. change (only true (dn f r c * u * C)) with (dn f r c * u * C) in R. rewrite R. ring.
Qed.
Lemma b_side r c : (r <= ny k)%nat -> (c <= nx k)%nat -> side k f d w x r c == 0.
Proof.
  intros Hr Hc. unfold side. set (y := onshore_side _ _ _ _ _ _ _). assert (Y := b_ends r c Hr Hc). fold y in Y. clearbody y. destruct Hb as (_ & _ & K3 & K4).
  unfold first_side, last_side. destruct K3 as [E|[E|E]]; rewrite E in *.
  - destruct (Hin E c Hc) as [I1 I2]. change (at_cell k (Cu0 d)) with (cell k (Cu0 d)) in I1, I2.
    assert (J : forall q q', ds f r c * q * q' * lateral_flux k == ds f r c * q * (lateral_flux k * q')) by (intros; ring).
    destruct (Nat.eqb_spec r 0) as [->|R0]; destruct (Nat.eqb_spec r (ny k)) as [R1|R1] || destruct (Nat.eqb_spec 0 (ny k)) as [R1|R1]; rewrite ?J.
    + rewrite <- R1 in *. cbn in Y. rewrite I1, (b_un 0 c), (b_un 1 c), Y by lia. ring.
    + cbn [Nat.leb only] in Y. destruct (Nat.ltb_spec 0 (ny k)); [|lia]. rewrite I1, (b_un 0 c), Y by lia. cbn [only]. ring.
    + subst r. destruct (Nat.leb_spec 1 (ny k)); [|lia]. destruct (Nat.ltb_spec (ny k) (ny k)); [lia|]. cbn [only] in Y. rewrite I2, (b_un (S (ny k)) c), Y by lia. ring.
    + destruct (Nat.leb_spec 1 r); [|lia]. destruct (Nat.ltb_spec r (ny k)); [|lia]. cbn [only] in Y. rewrite Y. ring.
  - destruct (Nat.eqb_spec r 0) as [->|R0]; [reflexivity|]. destruct (Nat.eqb_spec r (ny k)); [reflexivity|].
    destruct (Nat.leb_spec 1 r); [|lia]. destruct (Nat.ltb_spec r (ny k)); [|lia]. cbn [only] in Y. rewrite Y. ring.
  - specialize (K4 eq_refl). destruct (Nat.eqb_spec r 0) as [->|R0].
    + destruct (Nat.eqb_spec 0 (ny k)); [lia|]. cbn [Nat.leb only] in Y. destruct (Nat.ltb_spec 0 (ny k)); [|lia]. cbn [only] in Y. rewrite Y, (b_un 1 c), (b_fn 1 c), (ds_eq k f Hrect 1%nat 0%nat c) by lia. ring.
    + destruct (Nat.leb_spec 1 r); [|lia]. destruct (Nat.eqb_spec r (ny k)) as [->|R1].
      * destruct (Nat.ltb_spec (ny k) (ny k)); [lia|]. cbn [only] in Y. rewrite Y, (b_un (ny k) c), (b_fn (ny k) c), (ds_eq k f Hrect (ny k - 1)%nat (ny k) c) by lia. ring.
      * destruct (Nat.ltb_spec r (ny k)); [|lia]. cbn [only] in Y. rewrite Y. ring.
Qed.
Lemma b_rhs i : (i < cells k)%nat -> prhs k f d w x i == 0.
Proof. intros Hi. destruct (rc_of k i Hi) as (r & c & Hr & Hc & ->). unfold prhs. rewrite (flat_rc k) by exact Hc. apply b_side; assumption. Qed.
Lemma b_check : max_iter k <> 0%nat -> pcheck k = Ok tt.
Proof.
  intros Hm. destruct Hb as (K1 & K2 & K3 & K4). pose proof Hw as (Hy & Hx' & _). unfold pcheck, pdistinct.
  assert (P : negb (Nat.eqb (ny k) 0 || negb (Nat.eqb (ny k) 1) && Nat.leb 1 (nx k)) = false).
  { destruct (Nat.eqb_spec (ny k) 1); [lia|]. destruct (Nat.leb_spec 1 (nx k)); [|lia]. destruct (Nat.eqb (ny k) 0); reflexivity. }
  rewrite P. destruct (Nat.eqb_spec (max_iter k) 0); [lia|]. destruct (Nat.eqb_spec (nx k) 0); [lia|]. rewrite andb_false_r. cbn [orb].
  assert (G : beq (lateral k) Gradient && Nat.eqb (ny k) 0 = false) by (destruct K3 as [E|[E|E]]; rewrite E in *; cbn [beq andb]; try reflexivity; apply Nat.eqb_neq, K4, eq_refl).
  rewrite G. destruct K1 as [-> | [-> | ->]]; destruct K2 as [-> | [-> | ->]]; destruct K3 as [-> | [-> | ->]]; reflexivity.
Qed.

Variable sp : (nat -> nat -> Q) -> (nat -> Q) -> nat -> Q.
Hypothesis Hsp : solvable sp (number_of_cells k) (pmatrix k f).
Lemma b_settled : 0 <= C -> 0 <= max_error k -> max_iter k <> 0%nat ->
  exists o, pieter_fraction sp k f d w x = Ok (Some o) /\ converged o = true /\ forall i, (i < number_of_cells k)%nat -> ct o i == C /\ pickup o i == 0 /\ weight o i = w i.
Proof.
  intros HC He Hm. unfold pieter_fraction. rewrite (b_check Hm). cbn [bind]. pose proof Hs as (S1 & _).
  assert (IM : forall i, (i < cells k)%nat -> improve sp k f d w x i == C).
  { intros i Hi. unfold improve. cbv zeta. rewrite memo_get by exact Hi. destruct (Hsp (prhs k f d w x)) as [_ U]. rewrite <- (U (fun _ => 0)); [| |rewrite <- cells_eq; exact Hi].
    rewrite cells_eq in Hi. destruct (S1 i Hi) as (_ & -> & _). ring.
    apply solves_iff. intros j Hj. rewrite <- cells_eq in Hj |- *. rewrite b_rhs by exact Hj. unfold mulv. apply sumn_zero. intros; ring. }
  destruct (ptidy_same k (improve sp k f d w x)) as (z & Ez & Hz). intros i Hi. rewrite IM by exact Hi. exact HC.
  pose proof Hw as (_ & _ & Hdt & HT & _).
  assert (D : forall i, (i < cells k)%nat -> demand k d w z i == 0).
  { intros i Hi. unfold demand. rewrite Hz, IM by exact Hi. rewrite cells_eq in Hi. destruct (S1 i Hi) as (_ & _ & -> & _). field. lra. }
  exists {| ct := z; pickup := demand k d w z; weight := w; converged := true |}. split; [|split; [reflexivity|]].
  - assert (A : anyn (cells k) (short k d w z) = false).
    { destruct (anyn (cells k) (short k d w z)) eqn:A; [|reflexivity]. exfalso. apply anyn_spec in A. destruct A as (i & Hi & A). unfold short in A.
      destruct (Qltb_spec (max_error k) (demand k d w z i - mass d i)) as [L|]; [|discriminate A]. rewrite (D i Hi) in L. rewrite cells_eq in Hi. destruct (S1 i Hi) as (_ & _ & _ & _ & L5). lra. }
    f_equal. destruct (max_iter k - 1)%nat; cbn [piterate]; rewrite Ez, A; reflexivity.
  - intros i Hi. rewrite <- cells_eq in Hi. cbn [ct pickup weight]. split; [|split; [apply D, Hi | reflexivity]]. rewrite Hz by exact Hi. apply IM, Hi.
Qed.
End Borders.

Lemma lateral_settled : forall sp (k : pcfg) f d w x u v C, workable k -> rectangular k f -> known_borders k -> uniform_wind k f u v -> solvable sp (number_of_cells k) (pmatrix k f) ->
  psaturated k d w x C -> open_ends k u v -> carried_in k d C -> 0 <= C -> 0 <= max_error k -> max_iter k <> 0%nat ->
  exists o, pieter_fraction sp k f d w x = Ok (Some o) /\ converged o = true /\ forall i, (i < number_of_cells k)%nat -> ct o i == C /\ pickup o i == 0 /\ weight o i = w i.
Proof. intros sp k f d w x u v C H1 H2 H3 H4 H5 H6 H7 H8 H9 H10 H11. exact (b_settled k f d u v C w x H1 H2 H3 H4 H6 H7 H8 sp H5 H9 H10 H11). Qed.
