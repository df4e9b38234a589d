(** Proofs about transport that comes to rest: order, loss of memory, and the two solvers. *)
From Coq Require Import QArith Lia Lqa List Bool Arith Setoid Qpower.
From Verif Require Import Base Num Utils_Model Solver_Model Solver_Spec Linear Solver_Proofs Solver_Iter Solver_Balance Solver_Cases Spinup_Spec.
Import ListNotations.
Open Scope Q_scope.

Lemma posed_solution sp k f d w o : well_posed sp k f d w -> solve_fraction sp k f d w = Ok (Some o) -> converged o = true ->
  (forall i, (i < cells k)%nat -> 0 <= ct o i) /\ (forall i, (i < cells k)%nat -> 0 <= weight o i <= w i) /\ solves (cells k) (matrix k f) (rhs k f d (weight o)) (ct o).
Proof.
  intros (H1 & H2 & H3 & H4 & H5 & H6 & H7 & H8 & H9 & H10 & H11) Ho Hc. destruct (solution_exact sp k f d w H1 H2 H3 H4 H5 H6 H7 H8 H9 H10 H11 o Ho Hc) as (S1 & S2 & S3).
  rewrite <- cells_eq in *. repeat split; try assumption; apply S2; assumption.
Qed.
Lemma posed_good sp k f d w : well_posed sp k f d w -> solvable k f /\ inverse_nonneg k f.
Proof. intros (H1 & H2 & H3 & H4 & H5 & _). apply quiet_good; assumption. Qed.

(** * Order *)
Lemma prescribed_mono b a m c c' u : 0 <= a -> c <= c' -> prescribed b a m c u <= prescribed b a m c' u.
Proof. intros Ha Hc. destruct b; cbn [prescribed]; try apply Qle_refl. rewrite !(Qmult_comm a). apply mul_le_r; assumption. Qed.
Lemma rhs_order k f d d' w w' : sensible k -> fully_implicit k -> nonnegative_ends k f ->
  (forall i, (i < cells k)%nat -> lCt d i <= lCt d' i) -> (forall i, (i < cells k)%nat -> Cu0 d i <= Cu0 d' i) -> (forall i, (i < cells k)%nat -> carries d w i <= carries d' w' i) ->
  forall i, (i < cells k)%nat -> rhs k f d w i <= rhs k f d' w' i.
Proof.
  intros Hs Himp (E1 & E2 & _) Hl H0 Hcap i Hi. destruct (rc_of k i Hi) as (r & c & Hr & Hc & ->). pose proof (Hl _ Hi) as L. pose proof (H0 _ Hi) as Z. pose proof (Hcap _ Hi) as C.
  destruct (border_spec k c Hc) as [[_ Hb] | [_ [H1 H2]]].
  - rewrite !rhs_rc by exact Hc. cbv zeta. destruct (Nat.eqb_spec c (nx k)). apply prescribed_mono; assumption. destruct (Nat.eqb_spec c 0). apply prescribed_mono; assumption. lia.
  - rewrite !rhs_implicit by assumption. pose proof (Ti_pos k Hs) as HT. unfold carries in C. pose proof (mul_nn (Ti k) _ ltac:(lra) (proj1 (Qle_minus_iff _ _) C)) as M. destruct (trunk k); lra.
Qed.
Lemma order_step sp sp' k f d d' w w' o o' : well_posed sp k f d w -> well_posed sp' k f d' w' -> solve_fraction sp k f d w = Ok (Some o) -> solve_fraction sp' k f d' w' = Ok (Some o') ->
  converged o = true -> converged o' = true -> all_within (number_of_cells k) (lCt d) (lCt d') -> all_within (number_of_cells k) (Cu0 d) (Cu0 d') ->
  all_within (number_of_cells k) (carries d (weight o)) (carries d' (weight o')) -> all_within (number_of_cells k) (ct o) (ct o').
Proof.
  intros W W' Ho Ho' Hc Hc' H1 H2 H3. destruct (posed_solution _ _ _ _ _ _ W Ho Hc) as (_ & _ & S). destruct (posed_solution _ _ _ _ _ _ W' Ho' Hc') as (_ & _ & S').
  destruct (posed_good _ _ _ _ _ W) as (_ & Hinv). unfold all_within in *. rewrite <- cells_eq in *. apply (inverse_mono k f _ _ Hinv). intros i Hi. rewrite (S i Hi), (S' i Hi).
  destruct W as (W1 & _ & _ & _ & _ & W6 & _ & W8 & _). apply rhs_order; assumption.
Qed.

(** * Loss of memory *)
Section Memory.
Variables (k : cfg) (f : flow).
Hypothesis Hs : sensible k.
Hypothesis Hrect : rectangular k f.
Hypothesis Hlat : lateral_uniform k f.
Hypothesis Hg : gathering k f.
Let al := implicitness k.
(** A sum over all cells is a sum over rows and columns. *)
Lemma sum_cells (g : nat -> nat -> Q) n : sumn (n * width k) (fun i => g (i / width k)%nat (i mod width k)%nat) == sumn n (fun r => sumn (width k) (g r)).
Proof.
  assert (App : forall a b v, sumn (a + b) v == sumn a v + sumn b (fun i => v (a + i)%nat)).
  { intros a b v. induction b. rewrite Nat.add_0_r, sumn_0. ring. replace (a + S b)%nat with (S (a + b)) by lia. rewrite !sumn_S, IHb. ring. }
  induction n. reflexivity. replace (S n * width k)%nat with (n * width k + width k)%nat by lia. rewrite App, IHn, sumn_S. apply Qplus_comp. reflexivity.
  apply sumn_ext. intros i Hi. unfold width in *. rewrite Nat.div_add_l, Nat.div_small, Nat.add_0_r by lia. replace (n * S (nx k) + i)%nat with (i + n * S (nx k))%nat by lia. rewrite Nat.mod_add, Nat.mod_small by lia. reflexivity.
Qed.
(** What is not at the ends. *)
Lemma sum_inside (g : nat -> nat -> Q) : (forall r, (r <= ny k)%nat -> g r 0%nat == 0 /\ g r (nx k) == 0) -> sumn (S (ny k)) (fun r => sumn (width k) (g r)) == over_inside k g.
Proof.
  intros H. rewrite over_inside_sumn. apply sumn_ext. intros r Hr. destruct (H r ltac:(lia)) as (E0 & E1). unfold width. destruct Hs as (_ & Hnx & _). rewrite sumn_S, E1.
  destruct (nx k) as [|m] eqn:E; [lia|]. rewrite sumn_shift, E0. replace (S m - 1)%nat with m by lia. ring.
Qed.
(** Every column of the matrix, weighted, is at least the area times the loss. *)
Lemma columns_at_least (Hp : prescribed_ends k) r c : (r <= ny k)%nat -> (c <= nx k)%nat ->
  (if border k c then 0 else ds f 0%nat c * (one k + al * Ti k)) <= sumn (cells k) (fun i => flat k (weights k f) i * matrix k f i (r * width k + c)).
Proof.
  intros Hr Hc. pose proof Hs as (Hny & Hnx & _).
  rewrite column_sum; [| assumption .. | intros; rewrite Am2_zero by assumption; ring | intros; rewrite Ap2_zero by assumption; ring].
  pose proof (neighbours k f Hs Hrect Hp r c Hr Hc) as HM. cbv zeta in HM. pose proof (laterals k f Hs Hrect Hlat Hp r c Hr Hc) as HL. cbv zeta in HL.
  set (M := if Nat.ltb c (nx k) then _ else _) in *. set (P := if Nat.leb 1 c then _ else _) in *. set (L := if Nat.eqb (ny k) 0 then _ else _) in *.
  rewrite A0_eq by assumption. unfold weights in *. destruct (border_spec k c Hc) as [[Eb _] | [Eb _]]; rewrite Eb in *. lra.
  rewrite base0_eq by assumption. pose proof (hs_pos k f Hrect c Hc) as Hh. pose proof (h_pos k f Hrect) as Hh2.
  fold al. fold al in HM, HL.
  setoid_replace (ds f 0%nat c * (one k + al * (tstep k / ds f 0%nat c * qabs (us f r c) + tstep k / dn f 0%nat 0%nat * qabs (un f r c) + Ti k)))
    with (ds f 0%nat c * (one k + al * Ti k) + al * tstep k * qabs (us f r c) + ds f 0%nat c * (al * (tstep k / dn f 0%nat 0%nat)) * qabs (un f r c)).
  lra. field. split; lra.
Qed.
(** With nothing at the ends the result is at most as large as what was there, less the loss. *)
Lemma shrinks_closed (Hp : prescribed_ends k) (y z : nat -> Q) : solves (cells k) (matrix k f) y z -> (forall i, (i < cells k)%nat -> 0 <= y i) ->
  (forall r, (r <= ny k)%nat -> at_cell k y r 0 == 0 /\ at_cell k y r (nx k) == 0) ->
  over_inside k (fun r c => ds f 0%nat c * at_cell k z r c) * (one k + al * Ti k) <= over_inside k (fun r c => ds f 0%nat c * at_cell k y r c).
Proof.
  intros Hz Hy Hb. pose proof (regular_nonneg k f Hs Hrect Hlat Hg Hp y z Hz Hy) as Hzn.
  assert (E1 : sumn (cells k) (fun i => flat k (weights k f) i * y i) == over_inside k (fun r c => ds f 0%nat c * at_cell k y r c)).
  { rewrite <- (sum_inside (fun r c => ds f 0%nat c * at_cell k y r c)).
    - unfold cells. rewrite <- (sum_cells (fun r c => ds f 0%nat c * at_cell k y r c)). apply sumn_ext. intros i Hi. destruct (rc_of k i Hi) as (r & c & Hr & Hc & ->).
      rewrite flat_rc by exact Hc. unfold width. rewrite Nat.div_add_l, Nat.div_small, Nat.add_0_r by lia. replace ((r * S (nx k) + c) mod S (nx k))%nat with c by (rewrite Nat.add_comm, Nat.mod_add, Nat.mod_small by lia; reflexivity).
      change (y (r * S (nx k) + c)%nat) with (at_cell k y r c). unfold weights. destruct (border_spec k c Hc) as [[-> [-> | ->]] | [-> _]]; [| |reflexivity]; [rewrite (proj1 (Hb r Hr)) | rewrite (proj2 (Hb r Hr))]; ring.
    - intros r Hr. destruct (Hb r Hr) as (-> & ->). split; ring. }
  assert (E2 : sumn (cells k) (fun i => flat k (weights k f) i * y i) == sumn (cells k) (fun j => z j * sumn (cells k) (fun i => flat k (weights k f) i * matrix k f i j))).
  { rewrite (sumn_ext _ _ (fun i => sumn (cells k) (fun j => flat k (weights k f) i * (matrix k f i j * z j)))).
    - rewrite sumn_swap. apply sumn_ext. intros j _. rewrite <- sumn_scale. apply sumn_ext. intros i _. ring.
    - intros i Hi. rewrite sumn_scale. rewrite <- (Hz i Hi). reflexivity. }
  assert (E3 : over_inside k (fun r c => ds f 0%nat c * at_cell k z r c) * (one k + al * Ti k) <= sumn (cells k) (fun j => z j * sumn (cells k) (fun i => flat k (weights k f) i * matrix k f i j))).
  { set (g := fun r c => if border k c then 0 else at_cell k z r c * (ds f 0%nat c * (one k + al * Ti k))).
    assert (Eg : over_inside k (fun r c => ds f 0%nat c * at_cell k z r c) * (one k + al * Ti k) == over_inside k g).
    { rewrite !over_inside_sumn. rewrite Qmult_comm, <- sumn_scale. apply sumn_ext. intros r _. rewrite <- sumn_scale. apply sumn_ext. intros j Hj. unfold g, border.
      destruct (Nat.eqb_spec (S j) 0); [lia|]. destruct (Nat.eqb_spec (S j) (nx k)); [lia|]. cbn [orb]. ring. }
    rewrite Eg, <- (sum_inside g). unfold cells. rewrite <- (sum_cells g). apply sumn_le. intros i Hi. destruct (rc_of k i Hi) as (r & c & Hr & Hc & ->).
    unfold width at 1 2 3 4. rewrite Nat.div_add_l, Nat.div_small, Nat.add_0_r by lia. replace ((r * S (nx k) + c) mod S (nx k))%nat with c by (rewrite Nat.add_comm, Nat.mod_add, Nat.mod_small by lia; reflexivity).
    pose proof (columns_at_least Hp r c Hr Hc) as H. pose proof (Hzn _ Hi) as Hz0. unfold g. change (z (r * S (nx k) + c)%nat) with (at_cell k z r c). change (z (r * width k + c)%nat) with (at_cell k z r c) in Hz0. fold (cells k).
    set (q := sumn (cells k) _) in *. change (sumn (cells k) (fun i => flat k (weights k f) i * matrix k f i (r * S (nx k) + c)%nat)) with q.
    destruct (border k c). apply mul_nn; assumption. rewrite !(Qmult_comm (at_cell k z r c)). apply mul_le_r; assumption.
    intros r Hr. unfold g, border. rewrite !Nat.eqb_refl, orb_true_r. split; reflexivity. }
  rewrite E2 in E1. rewrite E1 in E3. exact E3.
Qed.
Lemma shrinks_prescribed (Hp : prescribed_ends k) (y z : nat -> Q) : solves (cells k) (matrix k f) y z ->
  (forall r, (r <= ny k)%nat -> at_cell k y r 0 == 0 /\ at_cell k y r (nx k) == 0) ->
  over_inside k (fun r c => ds f 0%nat c * qabs (at_cell k z r c)) * (one k + al * Ti k) <= over_inside k (fun r c => ds f 0%nat c * qabs (at_cell k y r c)).
Proof.
  intros Hz Hb. destruct (prescribed_solvable k f Hs Hrect Hlat Hg Hp) as (Hsolv & Hinv). destruct (Hsolv (fun i => qabs (y i))) as (x & Hx).
  assert (Hle : forall i, (i < cells k)%nat -> qabs (z i) <= x i).
  { assert (A : forall i, (i < cells k)%nat -> z i <= x i). { apply (inverse_mono k f _ _ Hinv). intros i Hi. rewrite (Hz i Hi), (Hx i Hi). unfold qabs. destruct (Qle_bool_spec 0 (y i)); lra. }
    assert (B : forall i, (i < cells k)%nat -> 0 - z i <= x i).
    { apply (inverse_mono k f (fun i => 0 - z i) _ Hinv). intros i Hi. rewrite (mulv_minus _ _ (fun _ => 0)). rewrite (Hz i Hi), (Hx i Hi).
      assert (Z0 : mulv (cells k) (matrix k f) (fun _ => 0) i == 0) by (apply sumn_zero; intros; ring). rewrite Z0. unfold qabs. destruct (Qle_bool_spec 0 (y i)); lra. }
    intros i Hi. specialize (A i Hi). specialize (B i Hi). unfold qabs. destruct (Qle_bool_spec 0 (z i)); lra. }
  eapply Qle_trans; [|apply (shrinks_closed Hp (fun i => qabs (y i)) x Hx)].
  - apply mul_le_r. apply Qlt_le_weak, (one_Ti k Hs). rewrite !over_inside_sumn. apply sumn_le. intros r Hr. apply sumn_le. intros j Hj. rewrite !(Qmult_comm (ds f 0%nat (S j))). apply mul_le_r.
    apply Qlt_le_weak, (hs_pos k f Hrect). lia. apply Hle. apply (rc_lt k); lia.
  - intros i _. apply qabs_nonneg.
  - intros r Hr. destruct (Hb r Hr) as (B0 & B1). unfold at_cell in *. split; unfold qabs; [destruct (Qle_bool_spec 0 (y (r * S (nx k) + 0)%nat)) | destruct (Qle_bool_spec 0 (y (r * S (nx k) + nx k)%nat))]; lra.
Qed.
End Memory.
Lemma shrinks k f (y z : nat -> Q) : sensible k -> rectangular k f -> lateral_uniform k f -> gathering k f -> quiet_ends k f -> solves (cells k) (matrix k f) y z ->
  (forall r, (r <= ny k)%nat -> at_cell k y r 0 == 0 /\ at_cell k y r (nx k) == 0) ->
  over_inside k (fun r c => ds f 0%nat c * qabs (at_cell k z r c)) * (one k + implicitness k * Ti k) <= over_inside k (fun r c => ds f 0%nat c * qabs (at_cell k y r c)).
Proof.
  intros Hs Hrect Hlat Hg [Hp | (Hoff & Hu & Hw)] Hz Hb. apply shrinks_prescribed; assumption.
  set (z' := fun i => if Nat.eqb (i mod width k) (nx k) then 0 else z i).
  assert (Ez : forall r c, (c <= nx k)%nat -> at_cell k z' r c = if Nat.eqb c (nx k) then 0 else at_cell k z r c) by (intros r c Hc; apply (at_cell_cut k z (fun _ => 0)); exact Hc).
  assert (Hin : forall r c, (r <= ny k)%nat -> (c < nx k)%nat -> at_cell k z r c == at_cell k z' r c) by (intros r c _ Hc; rewrite Ez by lia; destruct (Nat.eqb_spec c (nx k)); [lia | reflexivity]).
  assert (Hz' : solves (cells (closed k)) (matrix (closed k) f) y z').
  { intros i Hi. change (cells (closed k)) with (cells k) in *. destruct (rc_of k i Hi) as (r & c & Hr & Hc & ->). destruct (Nat.eq_dec c (nx k)) as [-> | Hn].
    - change (cells k) with (cells (closed k)). rewrite (closed_last_row k f Hs Hoff) by assumption. rewrite Ez, Nat.eqb_refl by lia. symmetry. apply (Hb r Hr).
    - rewrite <- (inner_rows k f Hs Hoff Hw z z' r c Hr ltac:(lia) Hin). apply Hz, Hi. }
  assert (Hp : prescribed_ends (closed k)) by (destruct Hoff as (Ho & _ & Hl); split; [cbn [closed offshore]; tauto | split; [left; reflexivity | exact Hl]]).
  pose proof (shrinks_prescribed (closed k) f Hs Hrect Hlat Hg Hp y z' Hz' Hb) as H. change (at_cell (closed k)) with (at_cell k) in H. change (one (closed k)) with (one k) in H. change (implicitness (closed k)) with (implicitness k) in H.
  change (Ti (closed k)) with (Ti k) in H. change (over_inside (closed k)) with (over_inside k) in H.
  rewrite (over_inside_sumn k (fun r c => ds f 0%nat c * qabs (at_cell k z r c))). rewrite (over_inside_sumn k (fun r c => ds f 0%nat c * qabs (at_cell k z' r c))) in H.
  rewrite (sumn_ext _ _ (fun r => sumn (nx k - 1) (fun j => ds f 0%nat (S j) * qabs (at_cell k z' r (S j))))). exact H.
  intros r Hr. apply sumn_ext. intros j Hj. rewrite Ez by lia. destruct (Nat.eqb_spec (S j) (nx k)); [lia | reflexivity].
Qed.
Lemma difference_ds k f x y : rectangular k f -> difference k f x y == dn f 0%nat 0%nat * over_inside k (fun r c => ds f 0%nat c * qabs (at_cell k (fun i => x i - y i) r c)).
Proof.
  intros H. unfold difference. rewrite !over_inside_sumn. rewrite <- sumn_scale. apply sumn_ext. intros r Hr. rewrite <- sumn_scale. apply sumn_ext. intros j Hj.
  destruct (H r (S j) ltac:(lia) ltac:(lia)) as (_ & E1 & _ & E2). unfold area. rewrite E1, E2. change (at_cell k (fun i => x i - y i) r (S j)) with (at_cell k x r (S j) - at_cell k y r (S j)). ring.
Qed.
Lemma forgets_linear k f d d' w w' x x' : trunk k = true -> sensible k -> rectangular k f -> lateral_uniform k f -> gathering k f -> quiet_ends k f -> fully_implicit k ->
  solves (cells k) (matrix k f) (rhs k f d w) x -> solves (cells k) (matrix k f) (rhs k f d' w') x' -> (forall i, (i < cells k)%nat -> Cu0 d' i == Cu0 d i /\ carries d' w' i == carries d w i) ->
  difference k f x x' * (1 + dt k / T k) <= difference k f (lCt d) (lCt d').
Proof.
  intros Ht W1 W2 W3 W4 W5 W6 S S' H.
  set (E := fun i => rhs k f d w i - rhs k f d' w' i).
  assert (HE : solves (cells k) (matrix k f) E (fun i => x i - x' i)) by (intros i Hi; rewrite mulv_minus, (S i Hi), (S' i Hi); reflexivity).
  assert (Hin : forall r c, (r <= ny k)%nat -> (1 <= c)%nat -> (c < nx k)%nat -> at_cell k E r c == at_cell k (fun i => lCt d i - lCt d' i) r c).
  { intros r c Hr H1 H2. unfold at_cell, E. fold (width k). rewrite !rhs_implicit by assumption. rewrite Ht. destruct (H _ (rc_lt k r c Hr ltac:(lia))) as (_ & C). unfold carries in C. rewrite C. ring. }
  assert (Hb : forall r, (r <= ny k)%nat -> at_cell k E r 0 == 0 /\ at_cell k E r (nx k) == 0).
  { assert (P : forall b a m c c' u, c' == c -> prescribed b a m c u - prescribed b a m c' u == 0) by (intros b a m c c' u Ec; destruct b; cbn [prescribed]; try ring; rewrite Ec; ring).
    intros r Hr. unfold at_cell, E. fold (width k). pose proof W1 as (_ & Hnx & _). rewrite !rhs_rc by lia. cbv zeta. rewrite !Nat.eqb_refl. destruct (Nat.eqb_spec 0 (nx k)); [lia|].
    split; apply P; apply H; apply rc_lt; lia. }
  pose proof (shrinks k f E _ W1 W2 W3 W4 W5 HE Hb) as G. rewrite !difference_ds by assumption. unfold one, implicitness in G. rewrite Ht in G. rewrite (W6 Ht) in G. unfold Ti, tstep in G. rewrite Ht in G.
  pose proof (h_pos k f W2) as Hh.
  rewrite (over_inside_sumn k (fun r c => ds f 0%nat c * qabs (at_cell k E r c))) in G.
  rewrite (sumn_ext _ _ (fun r => sumn (nx k - 1) (fun j => ds f 0%nat (Datatypes.S j) * qabs (at_cell k (fun i => lCt d i - lCt d' i) r (Datatypes.S j))))) in G.
  - rewrite <- (over_inside_sumn k (fun r c => ds f 0%nat c * qabs (at_cell k (fun i => lCt d i - lCt d' i) r c))) in G. set (a := over_inside k _) in *. set (b := over_inside k _) in *.
    apply (Qle_trans _ (dn f 0%nat 0%nat * (a * (1 + 1 * (dt k / T k))))). apply Qle_lteq. right. ring. rewrite !(Qmult_comm (dn f 0%nat 0%nat)). apply mul_le_r. lra. exact G.
  - intros r Hr. apply sumn_ext. intros j Hj. assert (Ea : forall p q, p == q -> qabs p == qabs q) by (intros p q Eq; unfold qabs; destruct (Qle_bool_spec 0 p), (Qle_bool_spec 0 q); lra).
    apply Qmult_comp. reflexivity. apply Ea. apply Hin; lia.
Qed.

Lemma forgets_step sp sp' k f d d' w w' o o' : trunk k = true -> well_posed sp k f d w -> well_posed sp' k f d' w' -> solve_fraction sp k f d w = Ok (Some o) -> solve_fraction sp' k f d' w' = Ok (Some o') ->
  converged o = true -> converged o' = true -> (forall i, (i < number_of_cells k)%nat -> Cu0 d' i == Cu0 d i /\ carries d' (weight o') i == carries d (weight o) i) ->
  difference k f (ct o) (ct o') * (1 + dt k / T k) <= difference k f (lCt d) (lCt d').
Proof.
  intros Ht W W' Ho Ho' Hc Hc' H. destruct (posed_solution _ _ _ _ _ _ W Ho Hc) as (_ & _ & S). destruct (posed_solution _ _ _ _ _ _ W' Ho' Hc') as (_ & _ & S').
  destruct W as (W1 & W2 & W3 & W4 & W5 & W6 & _). rewrite <- cells_eq in H. apply (forgets_linear k f d d' (weight o) (weight o')); assumption.
Qed.

(** * The two solvers *)
Section Rest.
Variables (k : cfg) (f : flow).
Hypothesis Ht : trunk k = true.
Hypothesis Hs : sensible k.
Hypothesis Hrect : rectangular k f.
Hypothesis Hlat : lateral_uniform k f.
Hypothesis Hl : lateral k = Circular.
Lemma row_steps x r c : (r <= ny k)%nat -> (1 <= c)%nat -> (c < nx k)%nat ->
  mulv (cells k) (matrix k f) x (r * width k + c) == at_cell k x r c + alpha k * (dt k * mulv (cells k) (matrix (steady k) f) x (r * width k + c)).
Proof.
  intros Hr H1 H2. pose proof Hs as (Hny & Hnx & _). rewrite row_sum by (assumption || lia).
  change (mulv (cells k) (matrix (steady k) f) x (r * width k + c)) with (mulv (cells (steady k)) (matrix (steady k) f) x (r * width (steady k) + c)). rewrite (row_sum (steady k)) by (assumption || (cbn; lia)).
  destruct (inside_rows k f Hl r c H1 H2) as (-> & -> & -> & -> & -> & -> & _). destruct (inside_rows k f Hl (next_row k r) c H1 H2) as (_ & _ & _ & _ & _ & _ & ->).
  destruct (inside_rows (steady k) f Hl r c H1 H2) as (-> & -> & -> & -> & -> & -> & _). destruct (inside_rows (steady k) f Hl (next_row (steady k) r) c H1 H2) as (_ & _ & _ & _ & _ & _ & ->).
  change (at_cell (steady k)) with (at_cell k). change (next_row (steady k)) with (next_row k). change (prev_row (steady k)) with (prev_row k). change (ny (steady k)) with (ny k).
  unfold base0, basepx, basemx, basep1, basem1, courant_s, courant_n, Ti, implicitness, tstep. rewrite Ht. cbn [trunk steady T]. change (us_min (steady k) f) with (us_min k f). change (un_min (steady k) f) with (un_min k f).
  unfold Qdiv. destruct (Nat.eqb (ny k) 0); ring.
Qed.
Lemma row_beside r c : (r <= ny k)%nat -> (c <= nx k)%nat -> row_before k (r * width k + c) = (prev_row k r * width k + c)%nat /\ row_after k (r * width k + c) = (next_row k r * width k + c)%nat.
Proof.
  intros Hr Hc. unfold row_before, row_after, prev_row, next_row. split.
  - destruct r as [|r]. destruct (Nat.ltb_spec (0 * width k + c) (width k)); [lia | unfold width in *; lia]. destruct (Nat.ltb_spec (S r * width k + c) (width k)); [unfold width in *; lia | lia].
  - destruct (Nat.eqb_spec r (ny k)) as [-> | Hn]. destruct (Nat.ltb_spec (ny k * width k + c) (width k * ny k)); [lia | lia].
    destruct (Nat.ltb_spec (r * width k + c) (width k * ny k)) as [|L]; [lia|]. exfalso. assert (S r * width k <= ny k * width k)%nat by (apply Nat.mul_le_mono_r; lia). unfold width in *. lia.
Qed.
Lemma explicit_rest (Hside : no_side_wind_in_1d k f) d r c : (r <= ny k)%nat -> (1 <= c)%nat -> (c < nx k)%nat -> let i := (r * width k + c)%nat in
  explicit k f d i == dt k * (lw d i * (lCuf d i * (1 - sat d i) + lCu d i * sat d i) / T k - mulv (cells k) (matrix (steady k) f) (lCt d) i).
Proof.
  intros Hr H1 H2 i. pose proof Hs as (Hny & Hnx & _). unfold i. clear i.
  change (mulv (cells k) (matrix (steady k) f) (lCt d) (r * width k + c)) with (mulv (cells (steady k)) (matrix (steady k) f) (lCt d) (r * width (steady k) + c)). rewrite (row_sum (steady k)) by (assumption || (cbn; lia)).
  destruct (inside_rows (steady k) f Hl r c H1 H2) as (-> & -> & -> & -> & -> & -> & _). destruct (inside_rows (steady k) f Hl (next_row (steady k) r) c H1 H2) as (_ & _ & _ & _ & _ & _ & ->).
  change (at_cell (steady k)) with (at_cell k). change (next_row (steady k)) with (next_row k). change (prev_row (steady k)) with (prev_row k). change (ny (steady k)) with (ny k).
  rewrite (base0_eq (steady k) f Hrect), (basep1_eq (steady k) f Hrect) by (assumption || (cbn; lia)). destruct c as [|c]; [lia|]. rewrite (basem1_eq (steady k) f Hrect) by (assumption || (cbn; lia)).
  unfold explicit. assert (E1 : ((r * width k + S c) / width k = r)%nat) by (unfold width; rewrite Nat.div_add_l, Nat.div_small, Nat.add_0_r by lia; reflexivity).
  assert (E2 : ((r * width k + S c) mod width k = S c)%nat) by (unfold width; rewrite Nat.add_comm, Nat.mod_add, Nat.mod_small by lia; reflexivity). rewrite E1, E2. cbv zeta.
  destruct (row_beside r (S c) Hr ltac:(lia)) as (-> & ->).
  replace (r * width k + S c - 1)%nat with (r * width k + c)%nat by lia. replace (r * width k + S c + 1)%nat with (r * width k + S (S c))%nat by lia. replace (S c - 1)%nat with c by lia.
  rewrite !cs_eq, !cn_eq by (assumption || lia). rewrite (un_plus_eq k f Hlat r (S c)), (un_min_eq k f Hlat r (S c)) by (assumption || lia).
  assert (V : un f r (S c) == un f 0%nat (S c)) by (apply Hlat; [exact Hr | lia]). rewrite <- (sgn_abs (us f r (S c))), <- (sgn_abs (un f r (S c))). unfold sgn. rewrite (upw_compat _ _ V), V.
  unfold us_min. destruct (Nat.eqb_spec (S c) (nx k)); [lia|]. cbn [us_plus].
  change (lCt d (r * width k + c)%nat) with (at_cell k (lCt d) r c). change (lCt d (r * width k + S c)%nat) with (at_cell k (lCt d) r (S c)). change (lCt d (r * width k + S (S c))%nat) with (at_cell k (lCt d) r (S (S c))).
  change (lCt d (prev_row k r * width k + S c)%nat) with (at_cell k (lCt d) (prev_row k r) (S c)). change (lCt d (next_row k r * width k + S c)%nat) with (at_cell k (lCt d) (next_row k r) (S c)).
  unfold source, Ti, one, implicitness, tstep. rewrite Ht. cbn [trunk steady T].
  destruct (Nat.eqb_spec (ny k) 0) as [Hz|Hz].
  - assert (V0 : un f 0%nat (S c) == 0) by (apply Hside; [exact Hz | lia]).
    generalize (upw (un f 0%nat (S c))). intros q. rewrite V0. unfold Qdiv. ring.
  - rewrite (basemx_eq (steady k) f Hrect Hlat), (basepx_eq (steady k) f Hrect Hlat) by (try apply (next_row_le k); assumption || (cbn; lia)). unfold implicitness, tstep. cbn [trunk steady]. unfold Qdiv. ring.
Qed.
End Rest.
Lemma qltb_same a b a' b' : a == a' -> b == b' -> Qltb a b = Qltb a' b'.
Proof. intros H H'. destruct (Qltb_spec a b), (Qltb_spec a' b'); try reflexivity; lra. Qed.
Lemma qmin_same a b a' b' : a == a' -> b == b' -> qmin a b == qmin a' b'.
Proof. intros H H'. unfold qmin. destruct (Qle_bool_spec a b), (Qle_bool_spec a' b'); lra. Qed.
(** A solution that asks for no more than there is is the result. *)
Lemma one_iteration sp k f d w x : exact_solver (number_of_cells k) (matrix k f) sp -> inverse_nonneg k f -> check_boundaries k = Ok tt -> distinct_offsets k = true -> max_iter k <> 0%nat ->
  solves (cells k) (matrix k f) (rhs k f d w) x -> (forall i, (i < cells k)%nat -> 0 <= x i) -> (forall i, (i < cells k)%nat -> short k d w x i = false) ->
  exists o, solve_fraction sp k f d w = Ok (Some o) /\ converged o = true /\ forall i, (i < cells k)%nat -> ct o i == x i /\ pickup o i == qmin (demand k d w x i) (mass d i) /\ weight o i == w i.
Proof.
  intros Hsp Hinv Hb Hd Hm Hx Hnn Hsh. rewrite solve_fraction_ok by assumption.
  assert (Hsol : solves (cells k) (matrix k f) (rhs k f d w) (sp (matrix k f) (rhs k f d w))) by (rewrite cells_eq; apply Hsp; exists x; rewrite <- cells_eq; exact Hx).
  assert (E : forall i, (i < cells k)%nat -> sp (matrix k f) (rhs k f d w) i == x i) by (intros i Hi; apply (inverse_unique k f _ _ _ Hinv Hsol Hx i Hi)).
  destruct (tidy_nonneg_same k (sp (matrix k f) (rhs k f d w))) as (c & Et & Ec). { intros i Hi. rewrite (E i Hi). apply Hnn, Hi. }
  assert (Exc : forall i, (i < cells k)%nat -> c i == x i) by (intros i Hi; rewrite (Ec i Hi); apply E, Hi).
  assert (Ea : anyn (cells k) (short k d w c) = false).
  { destruct (anyn (cells k) (short k d w c)) eqn:Ea; [|reflexivity]. apply anyn_spec in Ea. destruct Ea as (i & Hi & Ei). rewrite <- Ei. rewrite <- (Hsh i Hi). unfold short, demand. f_equal. apply qltb_same. reflexivity. rewrite (Exc i Hi). reflexivity. }
  exists {| ct := c; pickup := fun i => qmin (demand k d w c i) (mass d i); weight := w; converged := true |}. split. { f_equal. destruct (max_iter k - 1)%nat; cbn [iterate]; rewrite Et, Ea; reflexivity. }
  split. reflexivity. intros i Hi. cbn [ct pickup weight]. split. apply Exc, Hi. split; [|reflexivity]. apply qmin_same; [|reflexivity]. unfold demand. rewrite (Exc i Hi). reflexivity.
Qed.
(** At the ends both solvers have the same equations. *)
Lemma border_same k f x r c : sensible k -> lateral k = Circular -> offshore k <> Noflux -> (r <= ny k)%nat -> c = 0%nat \/ c = nx k ->
  mulv (cells k) (matrix k f) x (r * width k + c) == mulv (cells k) (matrix (steady k) f) x (r * width k + c).
Proof.
  intros (Hny & Hnx & _) Hl Ho Hr Hc. assert (Hc' : (c <= nx k)%nat) by lia. rewrite row_sum by assumption.
  change (mulv (cells k) (matrix (steady k) f) x (r * width k + c)) with (mulv (cells (steady k)) (matrix (steady k) f) x (r * width (steady k) + c)). rewrite (row_sum (steady k)) by assumption.
  change (at_cell (steady k)) with (at_cell k). change (next_row (steady k)) with (next_row k). change (prev_row (steady k)) with (prev_row k). change (ny (steady k)) with (ny k).
  assert (Eo : onshore_fixed (steady k) = onshore_fixed k) by (unfold onshore_fixed; cbn [steady onshore offshore trunk andb]; destruct (offshore k); cbn [beq]; rewrite ?andb_false_r; try reflexivity; contradiction).
  assert (Eb : border k c = true) by (unfold border; destruct Hc as [-> | ->]; [reflexivity | rewrite Nat.eqb_refl, orb_true_r; reflexivity]).
  unfold Am2, Am1, A0, Ap1, Ap2, Amx, Apx. rewrite Eo. change (border (steady k) c) with (border k c). rewrite Eb. cbn [orb]. change (fixed_row (steady k)) with (fixed_row k). change (nx (steady k)) with (nx k). change (offshore (steady k)) with (offshore k). change (onshore (steady k)) with (onshore k).
  destruct Hc as [-> | ->].
  - destruct (Nat.eqb_spec 0 (nx k)); [lia|]. change (Nat.eqb 0 0) with true. rewrite !orb_true_r. reflexivity.
  - rewrite Nat.eqb_refl. destruct (Nat.eqb_spec (nx k) 0); [lia|]. rewrite !orb_true_r. reflexivity.
Qed.
Lemma quiet_off k f : quiet_ends (steady k) f -> offshore k <> Noflux /\ lateral k = Circular /\ quiet_ends k f.
Proof.
  intros [(H1 & H2 & H3) | ((H1 & H2 & H3) & H4 & H5)]; cbn [steady offshore onshore lateral trunk ny nx] in *.
  - assert (O : offshore k = Flux \/ offshore k = Constant) by (destruct H1 as [H1 | [H1 | (E & _)]]; [auto | auto | discriminate]). split. destruct O as [-> | ->]; discriminate. split. exact H3.
    left. split. tauto. split; [|exact H3]. destruct H2 as [H2 | [H2 | (E & _)]]; [auto | auto | discriminate].
  - split. destruct H1 as [-> | ->]; discriminate. split. exact H3. right. split. split; [exact H1 | split; [exact H2 | exact H3]]. split; assumption.
Qed.
Lemma prescribed_same b a m c c' u : c == c' -> prescribed b a m c u == prescribed b a m c' u.
Proof. intros E. destruct b; cbn [prescribed]; try reflexivity. rewrite E. reflexivity. Qed.

Lemma rest_step sp k f d d' w o : trunk k = true -> well_posed sp (steady k) f d w -> exact_solver (number_of_cells k) (matrix k f) sp -> max_iter k <> 0%nat -> no_side_wind_in_1d k f ->
  solve_fraction sp (steady k) f d w = Ok (Some o) -> converged o = true -> resting k d o d' -> exists o', solve_fraction sp k f d' (weight o) = Ok (Some o') /\ same_result (number_of_cells k) o o'.
Proof.
  intros Ht W Hsp Hm Hside Ho Hc Hrest. destruct (posed_solution _ _ _ _ _ _ W Ho Hc) as (Hnn & _ & Hsol). pose proof W as (W1 & W2 & W3 & W4 & W5 & W6 & _). destruct (quiet_off k f W5) as (Hoff & Hl & Hq).
  change (sensible (steady k)) with (sensible k) in W1. change (rectangular k f) in W2. change (lateral_uniform k f) in W3. change (gathering k f) in W4. change (cells (steady k)) with (cells k) in *.
  destruct (quiet_good k f W1 W2 W3 W4 Hq) as (_ & Hinv). unfold resting in Hrest. unfold same_result. rewrite <- cells_eq in *.
  pose proof (solve_fraction_inv _ _ _ _ _ _ Ho) as Hit. symmetry in Hit. pose proof (iterate_converged _ _ _ _ _ _ _ Hit Hc) as Hconv. change (cells (steady k)) with (cells k) in Hconv.
  assert (Edem : forall i, (i < cells k)%nat -> demand k d' (weight o) (ct o) i == demand (steady k) d (weight o) (ct o) i).
  { intros i Hi. destruct (Hrest i Hi) as (_ & Ec & _). unfold demand. cbn [steady T dt]. rewrite Ec. reflexivity. }
  destruct (one_iteration sp k f d' (weight o) (ct o)) as (o' & E' & Hc' & Hres); try assumption.
  - rewrite <- cells_eq. exact Hsp.
  - apply (quiet_runs k f Hq).
  - apply sensible_offsets, W1.
  - intros i Hi. pose proof (Hsol i Hi) as Es. destruct (Hrest i Hi) as (R1 & R2 & R3 & R4 & R5 & R6). destruct (rc_of k i Hi) as (r & c & Hr & Hcc & ->).
    destruct (border_spec k c Hcc) as [[_ Hb] | [_ [H1 H2]]].
    + rewrite border_same by assumption. rewrite Es. change (r * width k + c)%nat with (r * width (steady k) + c)%nat at 1. rewrite !rhs_rc by exact Hcc. cbv zeta. cbn [steady nx onshore onshore_flux constant_onshore_flux offshore offshore_flux constant_offshore_flux].
      change (width (steady k)) with (width k). destruct (Nat.eqb_spec c (nx k)). apply prescribed_same. symmetry. exact R3. destruct (Nat.eqb_spec c 0). apply prescribed_same. symmetry. exact R3. lia.
    + rewrite (row_steps k f Ht W1 Hl) by assumption. rewrite Es. rewrite rhs_rc by exact Hcc. cbv zeta. destruct (Nat.eqb_spec c (nx k)); [lia|]. destruct (Nat.eqb_spec c 0); [lia|]. rewrite Ht.
      rewrite (explicit_rest k f Ht W1 W2 W3 Hl Hside d' r c Hr H1 H2). rewrite source_eq. rewrite R1, R5, R6.
      assert (Em : mulv (cells k) (matrix (steady k) f) (lCt d') (r * width k + c) == mulv (cells k) (matrix (steady k) f) (ct o) (r * width k + c)).
      { apply sumn_ext. intros j Hj. rewrite (proj1 (Hrest j Hj)). reflexivity. }
      rewrite Em, Es. change (r * width k + c)%nat with (r * width (steady k) + c)%nat at 2 6. rewrite (rhs_implicit (steady k) f d W6 (weight o) r c Hr H1 H2). cbn [steady trunk]. change (width (steady k)) with (width k). unfold Ti, tstep. rewrite Ht. cbn [steady trunk T]. change (at_cell k (ct o) r c) with (ct o (r * width k + c)%nat). unfold Qdiv. ring.
  - intros i Hi. destruct (Hconv i Hi) as (_ & Hsh). rewrite <- Hsh. destruct (Hrest i Hi) as (_ & R2 & _ & R4 & _). unfold short. cbn [steady max_error]. f_equal; apply qltb_same; rewrite ?(Edem i Hi), ?R4, ?R2; reflexivity.
  - exists o'. split. exact E'. split. congruence. intros i Hi. destruct (Hres i Hi) as (-> & -> & ->). split. reflexivity. split; [|reflexivity]. destruct (Hconv i Hi) as (-> & _). destruct (Hrest i Hi) as (_ & _ & _ & R4 & _). apply qmin_same. apply Edem, Hi. exact R4.
Qed.
(** Air that a time step leaves as it was is a steady state. *)
Lemma only_rest sp k f d w o : trunk k = true -> well_posed sp k f d w -> exact_solver (number_of_cells k) (matrix (steady k) f) sp -> offshore k <> Noflux ->
  solve_fraction sp k f d w = Ok (Some o) -> converged o = true -> (forall i, (i < number_of_cells k)%nat -> ct o i == lCt d i) ->
  exists o', solve_fraction sp (steady k) f d (weight o) = Ok (Some o') /\ same_result (number_of_cells k) o o'.
Proof.
  intros Ht W Hsp Hoff Ho Hc Hrest. destruct (posed_solution _ _ _ _ _ _ W Ho Hc) as (Hnn & _ & Hsol). pose proof W as (W1 & W2 & W3 & W4 & W5 & W6 & _).
  assert (Hl : lateral k = Circular) by (destruct W5 as [(_ & _ & H) | ((_ & _ & H) & _)]; exact H).
  assert (Hq : quiet_ends (steady k) f).
  { destruct W5 as [(H1 & H2 & H3) | ((H1 & H2 & H3) & H4 & H5)]; [left | right]; unfold prescribed_ends, prescribed_offshore; cbn [steady offshore onshore lateral trunk ny nx]; tauto. }
  destruct (quiet_good (steady k) f W1 W2 W3 W4 Hq) as (_ & Hinv). unfold same_result. rewrite <- cells_eq in *.
  pose proof (solve_fraction_inv _ _ _ _ _ _ Ho) as Hit. symmetry in Hit. pose proof (iterate_converged _ _ _ _ _ _ _ Hit Hc) as Hconv.
  assert (Hm : max_iter k <> 0%nat). { intros E. unfold solve_fraction in Ho. destruct (check_boundaries k); [|discriminate]. cbn [bind] in Ho. destruct (negb _); [discriminate|]. rewrite E in Ho. discriminate. }
  destruct (one_iteration sp (steady k) f d (weight o) (ct o)) as (o' & E' & Hc' & Hres); try assumption.
  - change (number_of_cells (steady k)) with (number_of_cells k). rewrite <- cells_eq. exact Hsp.
  - apply (quiet_runs (steady k) f Hq).
  - apply (sensible_offsets k), W1.
  - intros i Hi. change (cells (steady k)) with (cells k) in *. pose proof (Hsol i Hi) as Es. destruct (rc_of k i Hi) as (r & c & Hr & Hcc & ->). destruct (border_spec k c Hcc) as [[_ Hb] | [_ [H1 H2]]].
    + rewrite <- border_same by assumption. rewrite Es. change (r * width k + c)%nat with (r * width (steady k) + c)%nat at 2. rewrite !rhs_rc by exact Hcc. cbv zeta. cbn [steady nx onshore onshore_flux constant_onshore_flux offshore offshore_flux constant_offshore_flux].
      change (width (steady k)) with (width k). destruct (Nat.eqb_spec c (nx k)). reflexivity. destruct (Nat.eqb_spec c 0). reflexivity. lia.
    + rewrite (row_steps k f Ht W1 Hl) in Es by assumption. rewrite (rhs_implicit k f d W6 (weight o) r c Hr H1 H2) in Es. rewrite Ht, (W6 Ht) in Es. change (r * width k + c)%nat with (r * width (steady k) + c)%nat at 2.
      rewrite (rhs_implicit (steady k) f d ltac:(intros E; discriminate E) (weight o) r c Hr H1 H2). cbn [steady trunk]. change (width (steady k)) with (width k).
      change (at_cell k (ct o) r c) with (ct o (r * width k + c)%nat) in Es. rewrite (Hrest _ Hi) in Es. unfold Ti, tstep in *. rewrite Ht in Es. cbn [steady trunk T] in *. destruct W1 as (_ & _ & Hdt & HT & _).
      set (m := mulv _ _ _ _) in *. set (q := weight o _ * capacity d _) in *. assert (Em : dt k * m == dt k * (q / T k)). { transitivity (dt k / T k * q); [lra | unfold Qdiv; ring]. }
      apply Qmult_inj_l in Em; [|lra]. rewrite Em. field. lra.
  - intros i Hi. apply (Hconv i Hi).
  - exists o'. split. exact E'. split. congruence. intros i Hi. destruct (Hres i Hi) as (-> & -> & ->). split. reflexivity. split; [|reflexivity]. destruct (Hconv i Hi) as (-> & _). reflexivity.
Qed.
