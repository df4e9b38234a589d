(** Proofs about the symmetries of the transport. *)
From Coq Require Import QArith Lia Lqa List Bool Arith Setoid Permutation.
From Verif Require Import Base Num Utils_Model Solver_Model Solver_Spec Linear Solver_Proofs Solver_Iter Solver_Balance Solver_Cases Sym_Spec.
Import ListNotations.
Open Scope Q_scope.

Lemma qltb_compat a b c d : a == b -> c == d -> Qltb a c = Qltb b d.
Proof. intros H1 H2. destruct (Qltb_spec a c), (Qltb_spec b d); try reflexivity; lra. Qed.
Lemma qmin_compat a b c d : a == b -> c == d -> qmin a c == qmin b d.
Proof. intros H1 H2. unfold qmin. destruct (Qle_bool_spec a c), (Qle_bool_spec b d); lra. Qed.

Lemma qabs_compat a b : a == b -> qabs a == qabs b.
Proof. intros H. unfold qabs. destruct (Qle_bool_spec 0 a), (Qle_bool_spec 0 b); lra. Qed.

(** * Two related problems have related results *)
Section Transfer.
Variables (sp sp' : (nat -> nat -> Q) -> (nat -> Q) -> nat -> Q) (k k' : cfg) (f f' : flow) (d d' : input) (place : nat -> nat).
Hypothesis Hplace : forall i, (i < cells k')%nat -> (place i < cells k)%nat.
Hypothesis Honto : forall j, (j < cells k)%nat -> exists i, (i < cells k')%nat /\ place i = j.
Hypothesis HCu : forall i, (i < cells k')%nat -> Cu d' i == Cu d (place i).
Hypothesis Hmass : forall i, (i < cells k')%nat -> mass d' i == mass d (place i).
Hypothesis HT : T k' = T k.
Hypothesis Hdt : dt k' = dt k.
Hypothesis Herr : max_error k' = max_error k.
Hypothesis Hsp : exact_solver (number_of_cells k) (matrix k f) sp.
Hypothesis Hsp' : exact_solver (number_of_cells k') (matrix k' f') sp'.
Hypothesis Hs : sensible k.
Hypothesis Hsolv : solvable k f.
Hypothesis Hinv : inverse_nonneg k f.
Hypothesis Himp : fully_implicit k.
Hypothesis Hin : nonnegative_input k d.
Hypothesis Hends : nonnegative_ends k f.
Hypothesis Hinv' : inverse_nonneg k' f'.
Hypothesis Hpos : 0 < max_error k.
Hypothesis Hmul : forall x i, (i < cells k')%nat -> mulv (cells k') (matrix k' f') (fun j => x (place j)) i == mulv (cells k) (matrix k f) x (place i).
Hypothesis Hrhs : forall w w', (forall i, (i < cells k')%nat -> w' i == w (place i)) -> forall i, (i < cells k')%nat -> rhs k' f' d' w' i == rhs k f d w (place i).

Lemma solution_moved w w' : (forall i, (i < cells k')%nat -> w' i == w (place i)) ->
  forall i, (i < cells k')%nat -> sp' (matrix k' f') (rhs k' f' d' w') i == sp (matrix k f) (rhs k f d w) (place i).
Proof.
  intros Hw. pose proof (sol_solves sp k f d Hsp Hsolv w) as S1.
  set (x := sp (matrix k f) (rhs k f d w)) in *.
  assert (S2 : solves (cells k') (matrix k' f') (rhs k' f' d' w') (fun j => x (place j))).
  { intros i Hi. rewrite Hmul by exact Hi. rewrite (S1 _ (Hplace i Hi)). symmetry. apply Hrhs; assumption. }
  apply (inverse_unique k' f' (rhs k' f' d' w')); [exact Hinv' | | exact S2].
  pose proof (Hsp' (rhs k' f' d' w')) as H. rewrite <- cells_eq in H. apply H. exists (fun j => x (place j)). exact S2.
Qed.
Lemma iterate_moved : forall fuel w w' o, (forall i, (i < cells k)%nat -> 0 <= w i) -> (forall i, (i < cells k')%nat -> w' i == w (place i)) ->
  iterate sp k f d w fuel = Some o -> exists o', iterate sp' k' f' d' w' fuel = Some o' /\ same_at (cells k') place o o'.
Proof.
  induction fuel as [|n IH]; intros w w' o Hw Hww H; cbn [iterate] in *;
    (assert (Hnn : forall i, (i < cells k)%nat -> 0 <= sp (matrix k f) (rhs k f d w) i) by (apply sol_nonneg; assumption));
    (destruct (tidy_nonneg_same k _ Hnn) as (c & Et & Ec)); rewrite Et in H;
    (assert (Hnn' : forall i, (i < cells k')%nat -> 0 <= sp' (matrix k' f') (rhs k' f' d' w') i)
      by (intros i Hi; rewrite (solution_moved w w' Hww i Hi); apply Hnn, Hplace, Hi));
    (destruct (tidy_nonneg_same k' _ Hnn') as (c' & Et' & Ec')); rewrite Et';
    (assert (Hc : forall i, (i < cells k')%nat -> c' i == c (place i))
      by (intros i Hi; rewrite (Ec' i Hi), (Ec _ (Hplace i Hi)); apply solution_moved; assumption));
    (assert (Hdem : forall i, (i < cells k')%nat -> demand k' d' w' c' i == demand k d w c (place i))
      by (intros i Hi; unfold demand; rewrite HT, Hdt, (Hc i Hi), (HCu i Hi), (Hww i Hi); reflexivity));
    (assert (Hsh : forall i, (i < cells k')%nat -> short k' d' w' c' i = short k d w c (place i))
      by (intros i Hi; unfold short; f_equal; apply qltb_compat;
          [rewrite Herr; reflexivity | rewrite (Hdem i Hi), (Hmass i Hi); reflexivity | reflexivity | rewrite (Hww i Hi), (HCu i Hi); reflexivity]));
    (assert (Hany : anyn (cells k') (short k' d' w' c') = anyn (cells k) (short k d w c))
      by (apply eq_true_iff_eq; rewrite !anyn_spec; split;
          [intros (i & Hi & E); exists (place i); split; [apply Hplace, Hi | rewrite <- (Hsh i Hi); exact E]
          | intros (j & Hj & E); destruct (Honto j Hj) as (i & Hi & <-); exists i; split; [exact Hi | rewrite (Hsh i Hi); exact E]]));
    rewrite Hany; destruct (anyn (cells k) (short k d w c)) eqn:Ea.
  - injection H as <-. eexists. split; [reflexivity|]. split; [reflexivity|]. cbn [ct pickup weight converged]. intros i Hi. split; [apply Hc, Hi|]. split; [apply Hdem, Hi|].
    rewrite !memo_get by (try apply Hplace; exact Hi). unfold reduced. rewrite (Hsh i Hi). destruct (short k d w c (place i)).
    rewrite (Hmass i Hi), HT, Hdt, (Hc i Hi), (HCu i Hi). reflexivity. apply Hww, Hi.
  - injection H as <-. eexists. split; [reflexivity|]. split; [reflexivity|]. cbn [ct pickup weight converged]. intros i Hi. split; [apply Hc, Hi|]. split; [|apply Hww, Hi].
    apply qmin_compat. apply Hdem, Hi. apply Hmass, Hi.
  - apply (IH _ (memo (cells k') (reduced k' d' w' c')) o) in H; [exact H | |].
    + intros i Hi. rewrite memo_get by exact Hi. apply (reduced_facts k d Hs Hin Hpos w c i Hi). apply Hw, Hi. rewrite (Ec i Hi). apply Hnn, Hi.
    + intros i Hi. rewrite !memo_get by (try apply Hplace; exact Hi). unfold reduced. rewrite (Hsh i Hi). destruct (short k d w c (place i)).
      rewrite (Hmass i Hi), HT, Hdt, (Hc i Hi), (HCu i Hi). reflexivity. apply Hww, Hi.
  - injection H as <-. eexists. split; [reflexivity|]. split; [reflexivity|]. cbn [ct pickup weight converged]. intros i Hi. split; [apply Hc, Hi|]. split; [|apply Hww, Hi].
    apply qmin_compat. apply Hdem, Hi. apply Hmass, Hi.
Qed.
End Transfer.

(** * The rows of the system *)
Lemma moved_rc k row col r c : (c <= nx k)%nat -> moved k row col (r * width k + c) = (row r * width k + col c)%nat.
Proof.
  intros Hc. unfold moved, width. rewrite Nat.div_add_l, Nat.div_small, Nat.add_0_r by lia. rewrite (Nat.add_comm (r * S (nx k)) c), Nat.mod_add, Nat.mod_small by lia. reflexivity.
Qed.
Lemma at_moved k row col x r c : (c <= nx k)%nat -> at_cell k (fun j => x (moved k row col j)) r c = at_cell k x (row r) (col c).
Proof. intros Hc. unfold at_cell. fold (width k). rewrite moved_rc by exact Hc. reflexivity. Qed.
Lemma quiet_circular k f : quiet_ends k f -> lateral k = Circular.
Proof. intros [(_ & _ & H) | ((_ & _ & H) & _)]; exact H. Qed.
(** The last column copies the one before it. *)
Definition copied (k : cfg) : bool := negb (onshore_fixed k) && beq (onshore k) Uniform.
Lemma border_formula k f x r : sensible k -> quiet_ends k f -> (r <= ny k)%nat ->
  mulv (cells k) (matrix k f) x (r * width k + 0) == at_cell k x r 0 /\
  mulv (cells k) (matrix k f) x (r * width k + nx k) == at_cell k x r (nx k) - (if copied k then at_cell k x r (nx k - 1) else 0).
Proof.
  intros Hs Hq Hr. pose proof Hs as (Hny & Hnx & _). rewrite !row_sum by (assumption || lia).
  assert (Hfix : forall r, fixed_row k r = false) by (intros; unfold fixed_row; rewrite (quiet_circular k f Hq); reflexivity).
  assert (Ho : match offshore k with Uniform | Gradient => False | _ => True end).
  { destruct Hq as [([-> | [-> | [_ ->]]] & _) | (([-> | ->] & _) & _)]; exact I. }
  assert (Hn : onshore_fixed k = true \/ onshore k = Constant \/ onshore k = Uniform).
  { unfold onshore_fixed. destruct Hq as [(_ & [-> | [-> | [-> ->]]] & _) | (_ & -> & _)]; auto. left. cbn. apply orb_true_r. }
  unfold Am2, Am1, A0, Ap1, Ap2, Amx, Apx, border, copied. rewrite !Hfix, !Nat.eqb_refl, !orb_true_r. cbn [orb].
  destruct (Nat.eqb_spec 0 (nx k)); [lia|]. destruct (Nat.eqb_spec (nx k) 0); [lia|]. cbn [orb]. split.
  - destruct (offshore k); try contradiction; destruct (Nat.eqb (ny k) 0); ring.
  - destruct Hn as [-> | [-> | ->]]; cbn [negb andb beq]; try destruct (onshore_fixed k); cbn [negb andb beq]; destruct (Nat.eqb (ny k) 0); ring.
Qed.
Lemma inside_formula k f x r c : sensible k -> rectangular k f -> lateral_uniform k f -> lateral k = Circular -> (r <= ny k)%nat -> (S c < nx k)%nat ->
  let al := implicitness k in let a := tstep k / ds f 0%nat (S c) in let b := tstep k / dn f 0%nat 0%nat in let v := un f 0%nat (S c) in
  mulv (cells k) (matrix k f) x (r * width k + S c) ==
  (one k + al * (a * qabs (us f r (S c)) + b * qabs v + Ti k)) * at_cell k x r (S c)
  - al * a * (us f r c * upw (us f r (S c))) * at_cell k x r c + al * a * (us f r (S (S c)) * (1 - upw (us f r (S c)))) * at_cell k x r (S (S c))
  + (if Nat.eqb (ny k) 0 then 0 else - (al * b * (v * upw v)) * at_cell k x (prev_row k r) (S c) + al * b * (v * (1 - upw v)) * at_cell k x (next_row k r) (S c)).
Proof.
  intros Hs Hrect Hlat Hl Hr Hc. cbv zeta. pose proof Hs as (Hny & Hnx & _). rewrite row_sum by (assumption || lia).
  destruct (inside_rows k f Hl r (S c) ltac:(lia) ltac:(lia)) as (-> & -> & -> & -> & -> & -> & _).
  destruct (inside_rows k f Hl (next_row k r) (S c) ltac:(lia) ltac:(lia)) as (_ & _ & _ & _ & _ & _ & ->).
  pose proof (next_row_le k r Hr) as Hn.
  rewrite (base0_eq k f Hrect), (basep1_eq k f Hrect), (basem1_eq k f Hrect) by (assumption || lia).
  pose proof (basemx_eq k f Hrect Hlat r (S c) Hr ltac:(lia)) as E1. pose proof (basepx_eq k f Hrect Hlat _ (S c) Hn ltac:(lia)) as E2.
  assert (E : qabs (un f r (S c)) == qabs (un f 0%nat (S c))) by (apply qabs_compat, Hlat; lia). rewrite E.
  replace (S c - 1)%nat with c by lia. destruct (Nat.eqb (ny k) 0); [|rewrite E1, E2]; ring.
Qed.

(** * Along the coast *)
Section Along.
Variables (k : cfg) (f : flow) (row : nat -> nat) (b : Q).
Let f' := flow_at row stay 1 b f.
Let place := moved k row stay.
Hypothesis Hrow : forall r, (r <= ny k)%nat -> (row r <= ny k)%nat.
Hypothesis Hback : forall r, (r <= ny k)%nat -> exists r', (r' <= ny k)%nat /\ row r' = r.
Hypothesis Hturn : (b = 1 /\ forall r, (r <= ny k)%nat -> row (prev_row k r) = prev_row k (row r) /\ row (next_row k r) = next_row k (row r)) \/
  (b = - (1) /\ forall r, (r <= ny k)%nat -> row (prev_row k r) = next_row k (row r) /\ row (next_row k r) = prev_row k (row r)).
Hypothesis Hs : sensible k.
Hypothesis Hrect : rectangular k f.
Hypothesis Hlat : lateral_uniform k f.
Hypothesis Hg : gathering k f.
Hypothesis Hq : quiet_ends k f.
Lemma along_rect : rectangular k f'.
Proof.
  intros r c Hr Hc. cbn [f' flow_at ds dn]. unfold stay. destruct (Hrect (row r) c (Hrow r Hr) Hc) as (H1 & H2 & H3 & H4).
  destruct (Hrect (row 0%nat) c (Hrow 0%nat ltac:(lia)) Hc) as (_ & H5 & _ & _). destruct (Hrect (row 0%nat) 0%nat (Hrow 0%nat ltac:(lia)) ltac:(lia)) as (_ & _ & _ & H8).
  rewrite H2 in *. rewrite H4 in *. rewrite H5, H8. repeat split; assumption || reflexivity.
Qed.
Lemma along_lat : lateral_uniform k f'.
Proof. intros r c Hr Hc. cbn [f' flow_at un]. unfold stay. rewrite (Hlat (row r)), (Hlat (row 0%nat)) by (try apply Hrow; lia). reflexivity. Qed.
Lemma along_gathering : gathering k f'.
Proof.
  destruct Hg as (G1 & G2). split.
  - intros r c Hr Hc. cbn [f' flow_at us]. unfold stay. rewrite !Qmult_1_l. apply G1. apply Hrow, Hr. exact Hc.
  - intros r c (Hr & H1 & H2). cbn [f' flow_at us]. unfold stay. rewrite !Qmult_1_l. apply G2. split; [apply Hrow, Hr | split; assumption].
Qed.
Lemma along_quiet : quiet_ends k f'.
Proof. destruct Hq as [H | (H1 & H2 & H3)]; [left; exact H | right]. split; [exact H1|]. split; [exact H2|]. intros r Hr. cbn [f' flow_at us]. unfold stay. rewrite Qmult_1_l. apply H3, Hrow, Hr. Qed.
Lemma along_place i : (i < cells k)%nat -> (place i < cells k)%nat.
Proof. intros Hi. destruct (rc_of k i Hi) as (r & c & Hr & Hc & ->). unfold place. rewrite moved_rc by exact Hc. apply rc_lt. apply Hrow, Hr. exact Hc. Qed.
Lemma along_onto j : (j < cells k)%nat -> exists i, (i < cells k)%nat /\ place i = j.
Proof.
  intros Hj. destruct (rc_of k j Hj) as (r & c & Hr & Hc & ->). destruct (Hback r Hr) as (r' & Hr' & <-). exists (r' * width k + c)%nat.
  split. apply rc_lt; assumption. unfold place. rewrite moved_rc by exact Hc. reflexivity.
Qed.
Lemma along_mul x i : (i < cells k)%nat -> mulv (cells k) (matrix k f') (fun j => x (place j)) i == mulv (cells k) (matrix k f) x (place i).
Proof.
  intros Hi. destruct (rc_of k i Hi) as (r & c & Hr & Hc & ->). unfold place at 2. rewrite moved_rc by exact Hc. unfold stay.
  pose proof Hs as (_ & Hnx & _). pose proof (Hrow r Hr) as Hr'.
  destruct (border_spec k c Hc) as [[_ [-> | ->]] | [_ [H1 H2]]].
  - rewrite (proj1 (border_formula k f' _ r Hs along_quiet Hr)), (proj1 (border_formula k f _ _ Hs Hq Hr')). unfold place. rewrite at_moved by lia. reflexivity.
  - rewrite (proj2 (border_formula k f' _ r Hs along_quiet Hr)), (proj2 (border_formula k f _ _ Hs Hq Hr')). unfold place. rewrite !at_moved by lia. reflexivity.
  - destruct c as [|c]; [lia|]. pose proof (quiet_circular k f Hq) as Hl.
    rewrite (inside_formula k f' _ r c Hs along_rect along_lat Hl Hr H2), (inside_formula k f _ (row r) c Hs Hrect Hlat Hl Hr' H2). cbv zeta.
    unfold place. rewrite !at_moved by lia. cbn [f' flow_at us un ds dn]. unfold stay.
    destruct (Hrect (row 0%nat) (S c) (Hrow 0%nat ltac:(lia)) ltac:(lia)) as (_ & D1 & _ & _). destruct (Hrect (row 0%nat) 0%nat (Hrow 0%nat ltac:(lia)) ltac:(lia)) as (_ & _ & _ & D2).
    pose proof (Hlat (row 0%nat) (S c) (Hrow 0%nat ltac:(lia)) ltac:(lia)) as L.
    assert (Ea : tstep k / ds f (row 0%nat) (S c) == tstep k / ds f 0%nat (S c)) by (rewrite D1; reflexivity).
    assert (Eh : tstep k / dn f (row 0%nat) 0%nat == tstep k / dn f 0%nat 0%nat) by (rewrite D2; reflexivity).
    rewrite (upw_compat (1 * us f (row r) (S c)) (us f (row r) (S c)) ltac:(ring)).
    pose proof (qabs_compat (1 * us f (row r) (S c)) (us f (row r) (S c)) ltac:(ring)) as Eq.
    set (v := un f 0%nat (S c)) in *. set (v' := b * un f (row 0%nat) (S c)).
    assert (Ev : v' == b * v) by (unfold v'; rewrite L; reflexivity). clearbody v v'. clear L.
    set (a := tstep k / ds f 0%nat (S c)) in *. set (a' := tstep k / ds f (row 0%nat) (S c)) in *. set (h := tstep k / dn f 0%nat 0%nat) in *. set (h' := tstep k / dn f (row 0%nat) 0%nat) in *.
    clearbody a a' h h'. set (q := qabs (us f (row r) (S c))) in *. set (q' := qabs (1 * us f (row r) (S c))) in *. clearbody q q'.
    set (al := implicitness k). set (p := upw (us f (row r) (S c))). set (u1 := us f (row r) c). set (u2 := us f (row r) (S (S c))). clearbody al p u1 u2.
    destruct Hturn as [(Eb & Ht) | (Eb & Ht)]; destruct (Ht r Hr) as (-> & ->); rewrite Eb in Ev;
    set (y1 := at_cell k x (row r) (S c)); set (y2 := at_cell k x (row r) c); set (y3 := at_cell k x (row r) (S (S c)));
    set (y4 := at_cell k x (prev_row k (row r)) (S c)); set (y5 := at_cell k x (next_row k (row r)) (S c)); clearbody y1 y2 y3 y4 y5; set (o := one k); set (t := Ti k); clearbody o t.
    + rewrite Qmult_1_l in Ev. rewrite (upw_compat v' v Ev). pose proof (qabs_compat v' v Ev) as E0.
      destruct (Nat.eqb (ny k) 0); rewrite E0, ?Ev, Eq, Ea, Eh; ring.
    + assert (E1 : v' * upw v' == - (v * (1 - upw v))) by (unfold upw; destruct (Qle_bool_spec 0 v'), (Qle_bool_spec 0 v); lra).
      assert (E2 : v' * (1 - upw v') == - (v * upw v)) by (unfold upw; destruct (Qle_bool_spec 0 v'), (Qle_bool_spec 0 v); lra).
      assert (E3 : qabs v' == qabs v) by (unfold qabs; destruct (Qle_bool_spec 0 v'), (Qle_bool_spec 0 v); lra).
      destruct (Nat.eqb (ny k) 0); rewrite ?E1, ?E2, E3, Eq, Ea, Eh; ring.
Qed.
Variable d : input.
Hypothesis Himp : fully_implicit k.
Lemma along_rhs w w' : (forall i, (i < cells k)%nat -> w' i == w (place i)) -> forall i, (i < cells k)%nat -> rhs k f' (input_at place d) w' i == rhs k f d w (place i).
Proof.
  intros Hw i Hi. specialize (Hw i Hi). destruct (rc_of k i Hi) as (r & c & Hr & Hc & Ei). subst i. unfold place at 2. unfold place in Hw. rewrite moved_rc in * by exact Hc. unfold stay in *.
  destruct (border_spec k c Hc) as [[_ Hb] | [_ [H1 H2]]].
  - rewrite !rhs_rc by exact Hc. cbv zeta. cbn [input_at Cu0 f' flow_at uu]. unfold place. rewrite moved_rc by exact Hc. unfold stay.
    destruct (Nat.eqb_spec c (nx k)). reflexivity. destruct (Nat.eqb_spec c 0). reflexivity. lia.
  - rewrite !rhs_implicit by (try apply Hrow; assumption). unfold capacity. cbn [input_at lCt Cu Cuf sat]. unfold place. rewrite moved_rc by exact Hc. unfold stay. rewrite Hw. reflexivity.
Qed.
Lemma along sp sp' w o : well_posed sp k f d w -> exact_solver (number_of_cells k) (matrix k f') sp' -> solve_fraction sp k f d w = Ok (Some o) ->
  exists o', solve_fraction sp' k f' (input_at place d) (weights_at place w) = Ok (Some o') /\ same_at (number_of_cells k) place o o'.
Proof.
  intros (_ & _ & _ & _ & _ & _ & Hin & Hends & Herr & Hsp & Hw) Hsp' H. pose proof (quiet_good k f Hs Hrect Hlat Hg Hq) as (Hsolv & Hinv).
  pose proof (quiet_good k f' Hs along_rect along_lat along_gathering along_quiet) as (_ & Hinv').
  assert (Hm : max_iter k <> 0%nat) by (unfold solve_fraction in H; destruct (check_boundaries k); [|discriminate]; cbn [bind] in H; destruct (negb _); [discriminate|]; destruct (max_iter k); discriminate).
  apply solve_fraction_inv in H. symmetry in H. rewrite <- cells_eq in *.
  destruct (iterate_moved sp sp' k k f f' d (input_at place d) place along_place along_onto) with (fuel := (max_iter k - 1)%nat) (w := w) (w' := weights_at place w) (o := o) as (o' & E & Hsame);
    try assumption; try (intros; reflexivity); try (rewrite <- cells_eq; assumption).
  apply along_mul. apply along_rhs.
  exists o'. split; [|exact Hsame]. rewrite solve_fraction_ok. f_equal. exact E. apply (quiet_runs k f Hq). apply sensible_offsets, Hs. exact Hm.
Qed.
End Along.
Lemma further_next k m r : (r <= ny k)%nat -> further k m (next_row k r) = next_row k (further k m r) /\ further k m (prev_row k r) = prev_row k (further k m r).
Proof.
  assert (Hn : forall q, (q <= ny k)%nat -> next_row k q = ((q + 1) mod S (ny k))%nat).
  { intros q H. unfold next_row. destruct (Nat.eqb_spec q (ny k)) as [->|]. rewrite Nat.add_1_r, Nat.mod_same by lia. reflexivity. rewrite Nat.mod_small by lia. lia. }
  assert (Hp : forall q, (q <= ny k)%nat -> prev_row k q = ((q + ny k) mod S (ny k))%nat).
  { intros q H. unfold prev_row. destruct q. rewrite Nat.mod_small by lia. lia. replace (S q + ny k)%nat with (q + 1 * S (ny k))%nat by lia. rewrite Nat.mod_add, Nat.mod_small by lia. reflexivity. }
  assert (Hf : (further k m r <= ny k)%nat) by (unfold further; pose proof (Nat.mod_upper_bound (r + m) (S (ny k)) ltac:(lia)); lia).
  intros H. rewrite (Hn _ H), (Hn _ Hf), (Hp _ H), (Hp _ Hf). unfold further. rewrite !Nat.add_mod_idemp_l by lia. split; f_equal; lia.
Qed.
Lemma shift_invariant sp sp' k f d w o m : well_posed sp k f d w -> exact_solver (number_of_cells k) (matrix k (flow_at (further k m) stay 1 1 f)) sp' -> solve_fraction sp k f d w = Ok (Some o) ->
  exists o', solve_fraction sp' k (flow_at (further k m) stay 1 1 f) (input_at (moved k (further k m) stay) d) (weights_at (moved k (further k m) stay) w) = Ok (Some o') /\
    same_at (number_of_cells k) (moved k (further k m) stay) o o'.
Proof.
  intros Hwp. pose proof Hwp as (H1 & H2 & H3 & H4 & H5 & H6 & _). apply along; try assumption.
  - intros r Hr. unfold further. pose proof (Nat.mod_upper_bound (r + m) (S (ny k)) ltac:(lia)). lia.
  - intros r Hr. exists ((r + (S (ny k) - m mod S (ny k))) mod S (ny k))%nat. pose proof (Nat.mod_upper_bound (r + (S (ny k) - m mod S (ny k))) (S (ny k)) ltac:(lia)). split. lia.
    unfold further. rewrite Nat.add_mod_idemp_l by lia. rewrite <- Nat.add_mod_idemp_r by lia. pose proof (Nat.mod_upper_bound m (S (ny k)) ltac:(lia)).
    replace (r + (S (ny k) - m mod S (ny k)) + m mod S (ny k))%nat with (r + 1 * S (ny k))%nat by lia. rewrite Nat.mod_add, Nat.mod_small by lia. reflexivity.
  - left. split. reflexivity. intros r Hr. destruct (further_next k m r Hr). split; assumption.
Qed.
Lemma mirror_invariant sp sp' k f d w o : well_posed sp k f d w -> exact_solver (number_of_cells k) (matrix k (flow_at (other_side k) stay 1 (- (1)) f)) sp' -> solve_fraction sp k f d w = Ok (Some o) ->
  exists o', solve_fraction sp' k (flow_at (other_side k) stay 1 (- (1)) f) (input_at (moved k (other_side k) stay) d) (weights_at (moved k (other_side k) stay) w) = Ok (Some o') /\
    same_at (number_of_cells k) (moved k (other_side k) stay) o o'.
Proof.
  intros Hwp. pose proof Hwp as (H1 & H2 & H3 & H4 & H5 & H6 & _). apply along; try assumption.
  - intros r Hr. unfold other_side. lia.
  - intros r Hr. exists (ny k - r)%nat. unfold other_side. split; lia.
  - right. split. reflexivity. intros r Hr. unfold other_side, prev_row, next_row. split.
    + destruct r. rewrite Nat.sub_diag, Nat.sub_0_r, Nat.eqb_refl. reflexivity. destruct (Nat.eqb_spec (ny k - S r) (ny k)); lia.
    + destruct (Nat.eqb_spec r (ny k)) as [->|]. rewrite Nat.sub_diag, Nat.sub_0_r. reflexivity. destruct (ny k - r)%nat eqn:E; lia.
Qed.

(** * Across the coast *)
Section Across.
Variables (k : cfg) (f : flow).
Let k' := ends_exchanged k.
Let f' := flow_at stay (other_end k) (- (1)) 1 f.
Let place := moved k stay (other_end k).
Hypothesis Hs : sensible k.
Hypothesis Hrect : rectangular k f.
Hypothesis Hlat : lateral_uniform k f.
Hypothesis Hg : gathering k f.
Hypothesis Htwo : two_sided k.
Hypothesis Hcalm : never_calm k f.
Lemma across_sensible : sensible k'.
Proof. exact Hs. Qed.
Lemma across_rect : rectangular k' f'.
Proof.
  intros r c Hr Hc. cbn [k' ends_exchanged ny nx] in Hr, Hc. cbn [f' flow_at ds dn]. unfold stay, other_end. destruct (Hrect r (nx k - c)%nat Hr ltac:(lia)) as (H1 & H2 & H3 & H4).
  destruct (Hrect 0%nat (nx k - 0)%nat ltac:(lia) ltac:(lia)) as (_ & _ & _ & H8). split; [exact H1|]. split; [exact H2|]. split; [exact H3|]. rewrite H4, H8. reflexivity.
Qed.
Lemma across_lat : lateral_uniform k' f'.
Proof. intros r c Hr Hc. cbn [k' ends_exchanged ny nx] in Hr, Hc. cbn [f' flow_at un]. unfold stay, other_end. rewrite (Hlat r) by lia. reflexivity. Qed.
Lemma across_gathering : gathering k' f'.
Proof.
  destruct Hg as (G1 & G2). split.
  - intros r c Hr Hc. cbn [k' ends_exchanged ny nx] in Hr, Hc. cbn [f' flow_at us]. unfold stay, other_end. intros H. set (e := (nx k - S c)%nat) in *.
    assert (He : inside k r e) by (split; [exact Hr | unfold e; lia]). replace (nx k - c)%nat with (S e) by (unfold e; lia).
    pose proof (Hcalm r e He). assert (Hneg : us f r e < 0) by (destruct (Qlt_le_dec (us f r e) 0); [assumption|]; exfalso; lra). specialize (G2 r e He Hneg). lra.
  - intros r c (Hr & H1 & H2). cbn [k' ends_exchanged ny nx] in Hr, H1, H2. cbn [f' flow_at us]. unfold stay, other_end. intros H. set (e := (nx k - S c)%nat) in *.
    replace (nx k - c)%nat with (S e) in H by (unfold e; lia). specialize (G1 r e Hr ltac:(unfold e; lia)). lra.
Qed.
Lemma across_prescribed : prescribed_ends k /\ prescribed_ends k'.
Proof. destruct Htwo as ([A|A] & [B|B] & C); split; (split; [|split; [|exact C]]); cbn [k' ends_exchanged offshore onshore]; rewrite ?A, ?B; tauto. Qed.
Lemma across_uncopied : copied k = false /\ copied k' = false.
Proof. unfold copied, onshore_fixed, k'. cbn [ends_exchanged trunk offshore onshore]. destruct Htwo as ([-> | ->] & [-> | ->] & _); destruct (trunk k); split; reflexivity. Qed.
Lemma across_place i : (i < cells k)%nat -> (place i < cells k)%nat.
Proof. intros Hi. destruct (rc_of k i Hi) as (r & c & Hr & Hc & ->). unfold place. rewrite moved_rc by exact Hc. apply rc_lt. exact Hr. unfold other_end. lia. Qed.
Lemma across_onto j : (j < cells k)%nat -> exists i, (i < cells k)%nat /\ place i = j.
Proof.
  intros Hj. destruct (rc_of k j Hj) as (r & c & Hr & Hc & ->). exists (r * width k + (nx k - c))%nat.
  split. apply rc_lt; lia. unfold place. rewrite moved_rc by lia. unfold stay, other_end. f_equal. lia.
Qed.
Lemma across_mul x i : (i < cells k)%nat -> mulv (cells k') (matrix k' f') (fun j => x (place j)) i == mulv (cells k) (matrix k f) x (place i).
Proof.
  intros Hi. destruct (rc_of k i Hi) as (r & c & Hr & Hc & ->). unfold place at 2. rewrite moved_rc by exact Hc. unfold stay, other_end.
  pose proof Hs as (_ & Hnx & _). destruct across_prescribed as (P & P'). destruct across_uncopied as (C & C').
  change (r * width k + c)%nat with (r * width k' + c)%nat.
  destruct (border_spec k c Hc) as [[_ [-> | ->]] | [_ [H1 H2]]].
  - rewrite (proj1 (border_formula k' f' _ r Hs (or_introl P') Hr)). rewrite Nat.sub_0_r. rewrite (proj2 (border_formula k f _ r Hs (or_introl P) Hr)), C.
    change (at_cell k' (fun j => x (place j)) r 0) with (at_cell k (fun j => x (place j)) r 0). unfold place. rewrite at_moved by lia. unfold stay, other_end. rewrite Nat.sub_0_r. ring.
  - change (nx k) with (nx k') at 1. rewrite (proj2 (border_formula k' f' _ r Hs (or_introl P') Hr)), C'. rewrite Nat.sub_diag. rewrite (proj1 (border_formula k f _ r Hs (or_introl P) Hr)).
    change (at_cell k' (fun j => x (place j)) r (nx k')) with (at_cell k (fun j => x (place j)) r (nx k)). unfold place. rewrite at_moved by lia. unfold stay, other_end. rewrite Nat.sub_diag. ring.
  - destruct c as [|c]; [lia|]. assert (Hl : lateral k = Circular) by apply Htwo.
    rewrite (inside_formula k' f' _ r c across_sensible across_rect across_lat Hl Hr H2). set (e := (nx k - S (S c))%nat).
    replace (nx k - S c)%nat with (S e) by (unfold e; lia).
    rewrite (inside_formula k f x r e Hs Hrect Hlat Hl Hr ltac:(unfold e; lia)). cbv zeta.
    change (at_cell k') with (at_cell k). change (prev_row k') with (prev_row k). change (next_row k') with (next_row k). change (ny k') with (ny k). change (implicitness k') with (implicitness k).
    change (tstep k') with (tstep k). change (one k') with (one k). change (Ti k') with (Ti k).
    unfold place. rewrite !at_moved by lia. cbn [f' flow_at us un ds dn]. unfold stay, other_end.
    replace (nx k - S c)%nat with (S e) by (unfold e; lia). replace (nx k - c)%nat with (S (S e)) by (unfold e; lia). fold e. rewrite Nat.sub_0_r.
    destruct (Hrect 0%nat (nx k) ltac:(lia) ltac:(lia)) as (_ & _ & _ & D2).
    assert (Eh : tstep k / dn f 0%nat (nx k) == tstep k / dn f 0%nat 0%nat) by (rewrite D2; reflexivity).
    set (v := un f 0%nat (S e)) in *. set (v' := 1 * v). assert (Ev : v' == v) by (unfold v'; ring). clearbody v v'.
    set (a := tstep k / ds f 0%nat (S e)) in *. set (h := tstep k / dn f 0%nat 0%nat) in *. set (h' := tstep k / dn f 0%nat (nx k)) in *. clearbody a h h'.
    pose proof (Hcalm r (S e) ltac:(split; [exact Hr | unfold e; lia])) as Hn.
    set (u := us f r (S e)) in *. set (u1 := us f r e). set (u2 := us f r (S (S e))). clearbody u u1 u2.
    assert (Eu : upw (- (1) * u) = 1 - upw u).
    { unfold upw. destruct (Qle_bool_spec 0 (- (1) * u)), (Qle_bool_spec 0 u); try reflexivity; exfalso; [apply Hn|]; lra. }
    assert (Eq : qabs (- (1) * u) == qabs u) by (unfold qabs; destruct (Qle_bool_spec 0 (- (1) * u)), (Qle_bool_spec 0 u); lra).
    rewrite Eu, (upw_compat v' v Ev). pose proof (qabs_compat v' v Ev) as E0. set (q := qabs u) in *. set (q' := qabs (- (1) * u)) in *. clearbody q q'.
    set (y1 := at_cell k x r (S e)); set (y2 := at_cell k x r e); set (y3 := at_cell k x r (S (S e)));
    set (y4 := at_cell k x (prev_row k r) (S e)); set (y5 := at_cell k x (next_row k r) (S e)); clearbody y1 y2 y3 y4 y5; set (o := one k); set (t := Ti k); set (al := implicitness k); clearbody o t al.
    destruct (Nat.eqb (ny k) 0); rewrite E0, ?Ev, Eq, Eh; ring.
Qed.
Variable d : input.
Hypothesis Himp : fully_implicit k.
Lemma across_rhs w w' : (forall i, (i < cells k)%nat -> w' i == w (place i)) -> forall i, (i < cells k)%nat -> rhs k' f' (input_at place d) w' i == rhs k f d w (place i).
Proof.
  intros Hw i Hi. specialize (Hw i Hi). destruct (rc_of k i Hi) as (r & c & Hr & Hc & Ei). subst i. unfold place at 2. unfold place in Hw. rewrite moved_rc in * by exact Hc. unfold stay, other_end in *.
  pose proof Hs as (_ & Hnx & _). change (r * width k + c)%nat with (r * width k' + c)%nat.
  destruct (border_spec k c Hc) as [[_ Hb] | [_ [H1 H2]]].
  - rewrite !rhs_rc by (exact Hc || lia). cbv zeta. cbn [input_at Cu0 f' flow_at uu k' ends_exchanged nx onshore offshore onshore_flux offshore_flux constant_onshore_flux constant_offshore_flux].
    change (r * width k' + c)%nat with (r * width k + c)%nat. unfold place. rewrite moved_rc by exact Hc. unfold stay, other_end.
    destruct Hb as [-> | ->].
    + destruct (Nat.eqb_spec 0 (nx k)); [lia|]. rewrite Nat.eqb_refl, Nat.sub_0_r, Nat.eqb_refl. reflexivity.
    + rewrite Nat.sub_diag, !Nat.eqb_refl. destruct (Nat.eqb_spec 0 (nx k)); [lia|]. reflexivity.
  - rewrite !rhs_implicit by (assumption || (cbn [k' ends_exchanged nx]; lia)). unfold capacity. cbn [input_at lCt Cu Cuf sat]. change (r * width k' + c)%nat with (r * width k + c)%nat.
    unfold place. rewrite moved_rc by exact Hc. unfold stay, other_end. rewrite Hw. reflexivity.
Qed.
Lemma across sp sp' w o : nonnegative_input k d -> nonnegative_ends k f -> 0 < max_error k -> exact_solver (number_of_cells k) (matrix k f) sp -> all_nonneg (number_of_cells k) w ->
  exact_solver (number_of_cells k) (matrix k' f') sp' -> solve_fraction sp k f d w = Ok (Some o) ->
  exists o', solve_fraction sp' k' f' (input_at place d) (weights_at place w) = Ok (Some o') /\ same_at (number_of_cells k) place o o'.
Proof.
  intros Hin Hends Herr Hsp Hw Hsp' H. destruct across_prescribed as (P & P'). pose proof (quiet_good k f Hs Hrect Hlat Hg (or_introl P)) as (Hsolv & Hinv).
  pose proof (quiet_good k' f' Hs across_rect across_lat across_gathering (or_introl P')) as (_ & Hinv').
  assert (Hm : max_iter k <> 0%nat) by (unfold solve_fraction in H; destruct (check_boundaries k); [|discriminate]; cbn [bind] in H; destruct (negb _); [discriminate|]; destruct (max_iter k); discriminate).
  apply solve_fraction_inv in H. symmetry in H. rewrite <- cells_eq in *.
  destruct (iterate_moved sp sp' k k' f f' d (input_at place d) place across_place across_onto) with (fuel := (max_iter k - 1)%nat) (w := w) (w' := weights_at place w) (o := o) as (o' & E & Hsame);
    try assumption; try (intros; reflexivity); try (rewrite <- cells_eq; assumption).
  apply across_mul. apply across_rhs.
  exists o'. split; [|exact Hsame]. rewrite solve_fraction_ok. f_equal. exact E. apply (quiet_runs k' f' (or_introl P')). apply sensible_offsets, Hs. exact Hm.
Qed.
End Across.
Lemma turned_invariant sp sp' k f d w o : well_posed sp k f d w -> two_sided k -> never_calm k f -> exact_solver (number_of_cells k) (matrix (ends_exchanged k) (flow_at stay (other_end k) (- (1)) 1 f)) sp' ->
  solve_fraction sp k f d w = Ok (Some o) ->
  exists o', solve_fraction sp' (ends_exchanged k) (flow_at stay (other_end k) (- (1)) 1 f) (input_at (moved k stay (other_end k)) d) (weights_at (moved k stay (other_end k)) w) = Ok (Some o') /\
    same_at (number_of_cells k) (moved k stay (other_end k)) o o'.
Proof. intros (H1 & H2 & H3 & H4 & H5 & H6 & H7 & H8 & H9 & H10 & H11) H12 H13. apply across; assumption. Qed.

(** * One row and many equal rows *)
Section Rows.
Variables (k : cfg) (f : flow) (n : nat) (v : nat -> nat -> Q).
Let k' := with_rows k n.
Let f' := with_side_wind (flow_at first stay 1 1 f) v.
Let place := moved k first stay.
Hypothesis Hone : ny k = 0%nat.
Hypothesis Hmany : (2 <= n)%nat.
Hypothesis Hv : forall r c, (r <= n)%nat -> (c <= nx k)%nat -> v r c == v 0%nat c.
Hypothesis Hs : sensible k.
Hypothesis Hrect : rectangular k f.
Hypothesis Hlat : lateral_uniform k f.
Hypothesis Hside : no_side_wind_in_1d k f.
Hypothesis Hg : gathering k f.
Hypothesis Hq : quiet_ends k f.
Lemma rows_sensible : sensible k'.
Proof. destruct Hs as (_ & H). split; [cbn [k' with_rows ny]; lia | exact H]. Qed.
Lemma rows_rect : rectangular k' f'.
Proof. intros r c Hr Hc. cbn [f' with_side_wind flow_at ds dn]. unfold stay, first. apply (Hrect 0%nat c ltac:(lia) Hc). Qed.
Lemma rows_lat : lateral_uniform k' f'.
Proof. intros r c Hr Hc. apply Hv; assumption. Qed.
Lemma rows_gathering : gathering k' f'.
Proof.
  destruct Hg as (G1 & G2). split.
  - intros r c Hr Hc. cbn [f' with_side_wind flow_at us]. unfold stay, first. rewrite !Qmult_1_l. apply G1. lia. exact Hc.
  - intros r c (Hr & H1 & H2). cbn [f' with_side_wind flow_at us]. unfold stay, first. rewrite !Qmult_1_l. apply G2. split; [lia | split; assumption].
Qed.
Lemma rows_quiet : quiet_ends k' f'.
Proof. destruct Hq as [H | (H1 & H2 & H3)]; [left; exact H | right]. split; [exact H1|]. split; [exact H2|]. intros r Hr. cbn [f' with_side_wind flow_at us]. unfold stay, first. rewrite Qmult_1_l. apply H3. lia. Qed.
Lemma rows_place i : (i < cells k')%nat -> (place i < cells k)%nat.
Proof.
  intros Hi. destruct (rc_of k' i Hi) as (r & c & Hr & Hc & ->). unfold place. change (width k') with (width k). rewrite moved_rc by exact Hc. apply rc_lt. unfold first. lia. exact Hc.
Qed.
Lemma rows_onto j : (j < cells k)%nat -> exists i, (i < cells k')%nat /\ place i = j.
Proof.
  intros Hj. destruct (rc_of k j Hj) as (r & c & Hr & Hc & ->). exists (0 * width k' + c)%nat. split. apply rc_lt; [lia | exact Hc].
  unfold place. change (width k') with (width k). rewrite moved_rc by exact Hc. unfold first, stay. replace r with 0%nat by lia. reflexivity.
Qed.
Lemma rows_mul x i : (i < cells k')%nat -> mulv (cells k') (matrix k' f') (fun j => x (place j)) i == mulv (cells k) (matrix k f) x (place i).
Proof.
  intros Hi. destruct (rc_of k' i Hi) as (r & c & Hr & Hc & ->). unfold place at 2. change (width k') with (width k) at 2. rewrite moved_rc by exact Hc. unfold stay, first.
  pose proof Hs as (_ & Hnx & _). pose proof rows_sensible as Hs'.
  assert (Ep : forall r c, (c <= nx k)%nat -> at_cell k' (fun j => x (place j)) r c = at_cell k x 0 c).
  { intros r0 c0 Hc0. change (at_cell k') with (at_cell k). unfold place. rewrite at_moved by exact Hc0. reflexivity. }
  assert (Hf : (0 <= ny k)%nat) by lia.
  destruct (border_spec k' c Hc) as [[_ [-> | ->]] | [_ [H1 H2]]].
  - rewrite (proj1 (border_formula k' f' _ r Hs' rows_quiet Hr)), (proj1 (border_formula k f _ 0%nat Hs Hq Hf)). rewrite Ep by lia. reflexivity.
  - rewrite (proj2 (border_formula k' f' _ r Hs' rows_quiet Hr)). change (nx k') with (nx k). rewrite (proj2 (border_formula k f _ 0%nat Hs Hq Hf)). rewrite !Ep by lia. reflexivity.
  - destruct c as [|c]; [lia|]. pose proof (quiet_circular k f Hq) as Hl. cbn [k' with_rows nx] in H2.
    rewrite (inside_formula k' f' _ r c Hs' rows_rect rows_lat Hl Hr H2), (inside_formula k f _ 0%nat c Hs Hrect Hlat Hl Hf H2). cbv zeta.
    rewrite !Ep by lia. cbn [f' with_side_wind flow_at us un ds dn]. unfold stay, first.
    change (ny k') with n. destruct (Nat.eqb_spec n 0); [lia|]. destruct (Nat.eqb_spec (ny k) 0); [|lia].
    change (implicitness k') with (implicitness k). change (tstep k') with (tstep k). change (one k') with (one k). change (Ti k') with (Ti k).
    pose proof (Hside Hone (S c) ltac:(lia)) as Z.
    rewrite (upw_compat (1 * us f 0%nat (S c)) (us f 0%nat (S c)) ltac:(ring)).
    pose proof (qabs_compat (1 * us f 0%nat (S c)) (us f 0%nat (S c)) ltac:(ring)) as Eq.
    assert (Ez : qabs (un f 0%nat (S c)) == 0) by (unfold qabs; destruct (Qle_bool 0 (un f 0%nat (S c))); lra).
    pose proof (sgn_abs (v 0%nat (S c))) as Ea. unfold sgn in Ea. set (z := qabs (un f 0%nat (S c))) in *. set (p := v 0%nat (S c)) in *. clearbody z.
    set (a := tstep k / ds f 0%nat (S c)) in *. set (h := tstep k / dn f 0%nat 0%nat) in *. clearbody a h. set (q := qabs (us f 0%nat (S c))) in *. set (q' := qabs (1 * us f 0%nat (S c))) in *. clearbody q q'.
    set (al := implicitness k). set (g := upw (us f 0%nat (S c))). set (u1 := us f 0%nat c). set (u2 := us f 0%nat (S (S c))). clearbody al g u1 u2.
    set (y1 := at_cell k x 0 (S c)); set (y2 := at_cell k x 0 c); set (y3 := at_cell k x 0 (S (S c))); clearbody y1 y2 y3; set (o := one k); set (t := Ti k); clearbody o t.
    set (up := upw p) in *. set (ap := qabs p) in *. clearbody up ap p. rewrite <- Ea, Eq, Ez. ring.
Qed.
Variable d : input.
Hypothesis Himp : fully_implicit k.
Lemma rows_rhs w w' : (forall i, (i < cells k')%nat -> w' i == w (place i)) -> forall i, (i < cells k')%nat -> rhs k' f' (input_at place d) w' i == rhs k f d w (place i).
Proof.
  intros Hw i Hi. specialize (Hw i Hi). destruct (rc_of k' i Hi) as (r & c & Hr & Hc & Ei). subst i.
  assert (Ep : place (r * width k' + c) = (0 * width k + c)%nat) by (unfold place; change (width k') with (width k); rewrite moved_rc by exact Hc; reflexivity).
  rewrite Ep in *.
  destruct (border_spec k' c Hc) as [[_ Hb] | [_ [H1 H2]]].
  - rewrite !rhs_rc by exact Hc. cbv zeta. cbn [input_at Cu0 f' with_side_wind flow_at uu]. rewrite Ep. unfold stay, first. change (nx k') with (nx k) in *.
    destruct (Nat.eqb_spec c (nx k)). reflexivity. destruct (Nat.eqb_spec c 0). reflexivity. lia.
  - rewrite !rhs_implicit by (try assumption; lia). unfold capacity. cbn [input_at lCt Cu Cuf sat]. rewrite Ep, Hw. reflexivity.
Qed.
Lemma rows sp sp' w o : nonnegative_input k d -> nonnegative_ends k f -> 0 < max_error k -> exact_solver (number_of_cells k) (matrix k f) sp -> all_nonneg (number_of_cells k) w ->
  exact_solver (number_of_cells k') (matrix k' f') sp' -> solve_fraction sp k f d w = Ok (Some o) ->
  exists o', solve_fraction sp' k' f' (input_at place d) (weights_at place w) = Ok (Some o') /\ same_at (number_of_cells k') place o o'.
Proof.
  intros Hin Hends Herr Hsp Hw Hsp' H. pose proof (quiet_good k f Hs Hrect Hlat Hg Hq) as (Hsolv & Hinv).
  pose proof (quiet_good k' f' rows_sensible rows_rect rows_lat rows_gathering rows_quiet) as (_ & Hinv').
  assert (Hm : max_iter k <> 0%nat) by (unfold solve_fraction in H; destruct (check_boundaries k); [|discriminate]; cbn [bind] in H; destruct (negb _); [discriminate|]; destruct (max_iter k); discriminate).
  apply solve_fraction_inv in H. symmetry in H. rewrite <- cells_eq in *.
  destruct (iterate_moved sp sp' k k' f f' d (input_at place d) place rows_place rows_onto) with (fuel := (max_iter k - 1)%nat) (w := w) (w' := weights_at place w) (o := o) as (o' & E & Hsame);
    try assumption; try (intros; reflexivity); try (rewrite <- cells_eq; assumption).
  apply rows_mul. apply rows_rhs.
  exists o'. split; [|exact Hsame]. rewrite solve_fraction_ok. f_equal. exact E. apply (quiet_runs k' f' rows_quiet). apply sensible_offsets, rows_sensible. exact Hm.
Qed.
End Rows.
Lemma rows_invariant sp sp' k f d w o n v : well_posed sp k f d w -> ny k = 0%nat -> no_side_wind_in_1d k f -> (2 <= n)%nat -> (forall r c, (r <= n)%nat -> (c <= nx k)%nat -> v r c == v 0%nat c) ->
  exact_solver (number_of_cells (with_rows k n)) (matrix (with_rows k n) (with_side_wind (flow_at first stay 1 1 f) v)) sp' -> solve_fraction sp k f d w = Ok (Some o) ->
  exists o', solve_fraction sp' (with_rows k n) (with_side_wind (flow_at first stay 1 1 f) v) (input_at (moved k first stay) d) (weights_at (moved k first stay) w) = Ok (Some o') /\
    same_at (number_of_cells (with_rows k n)) (moved k first stay) o o'.
Proof. intros (H1 & H2 & H3 & H4 & H5 & H6 & H7 & H8 & H9 & H10 & H11) Hone Hside Hmany Hv. apply rows; assumption. Qed.
