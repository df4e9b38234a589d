(** Proofs about the weights kept after a step. *)
From Coq Require Import QArith Lia Lqa List Bool Arith Setoid.
From Verif Require Import Base Num Utils_Model Utils_Spec Utils_Proofs Utils_Cases Bed_Spec Bed_Model Bed_Proofs Solver_Model Solver_Spec Linear Solver_Proofs Solver_Iter Solver_Cases Solver_Balance Run_Model Run_Spec Run_Proofs Run_Whole
  Day_Model Day_Spec Day_Proofs Limit_Spec Limit_Proofs Kept_Spec.
Import ListNotations.
Open Scope Q_scope.

Lemma same_nth a b : same a b -> forall m, nth m a 0 == nth m b 0.
Proof. unfold same. induction 1 as [|x y a b E H IH]; intros [|m]; cbn [nth]; try reflexivity; auto. Qed.
Lemma nth_firstn_q m i (l : list Q) : (m < i)%nat -> nth m (firstn i l) 0 = nth m l 0.
Proof. revert m l. induction i; intros m l H; [lia|]. destruct l; [reflexivity|]. destruct m; [reflexivity|]. cbn [firstn nth]. apply IHi. lia. Qed.
Lemma set_nth_other n m x : forall l, n <> m -> nth m (set_nth n x l) 0 = nth m l 0.
Proof. revert m. induction n; intros m [|y l] H; cbn; try reflexivity; destruct m; try reflexivity; try lia. cbn [nth]. apply IHn. lia. Qed.
Lemma set_nth_this n x : forall l, (n < length l)%nat -> nth n (set_nth n x l) 0 = x.
Proof. induction n; intros [|y l] H; cbn in *; try lia. reflexivity. apply IHn. lia. Qed.
Lemma nth_skipn_q m i (l : list Q) : nth m (skipn i l) 0 = nth (i + m) l 0.
Proof. revert l. induction i; intros l; [reflexivity|]. destruct l; [cbn; destruct m; reflexivity|]. cbn [skipn Nat.add nth]. apply IHi. Qed.

(** The fraction at the end has a share, or the fractions before use up everything. *)
Definition supplied (nf i : nat) (l : list Q) : Prop := 0 < nth (nf - 1) l 0 \/ qsum (firstn i l) == 1.

Lemma supplied_sum nf i l : (i < nf)%nat -> length l = nf -> Utils_Spec.all_nonneg l -> 0 < nth (nf - 1) l 0 -> ~ qsum (skipn i l) == 0.
Proof.
  intros Hi L N P. assert (nth (nf - 1) l 0 <= qsum (skipn i l)); [|lra]. apply qsum_member.
  - intros y Hy. apply N. rewrite <- (firstn_skipn i l). apply in_or_app. auto.
  - replace (nf - 1)%nat with (i + (nf - 1 - i))%nat by lia. rewrite <- nth_skipn_q. apply nth_In. rewrite skipn_length. lia.
Qed.
Lemma supplied_keeps nf i l : (i < nf)%nat -> length l = nf -> Utils_Spec.all_nonneg l -> supplied nf i l ->
  forall m, (m < i)%nat -> nth m (renormalize_weights l i) 0 == nth m l 0.
Proof.
  intros Hi L N Hs m Hm. assert (~ qsum (skipn i l) == 0 \/ qsum (firstn i l) == 1) as H by (destruct Hs as [P|P]; [left; apply (supplied_sum nf); assumption|right; exact P]).
  pose proof (same_nth _ _ (renorm_keeps_earlier l i H) m) as E. rewrite firstn_length_le in E by lia. rewrite !nth_firstn_q in E by exact Hm. exact E.
Qed.
Lemma sum_same : forall a b, same a b -> qsum a == qsum b.
Proof. unfold same. induction 1 as [|x y a b E H IH]; cbn [qsum fold_right]; [reflexivity|]. fold (qsum a) (qsum b). rewrite E, IH. reflexivity. Qed.
Lemma firstn_next : forall (r : list Q) i, (i < length r)%nat -> qsum (firstn (S i) r) == qsum (firstn i r) + nth i r 0.
Proof.
  induction r as [|y r IH]; intros [|i] E; cbn [length] in E; try lia.
  - cbn. ring.
  - change (y + qsum (firstn (S i) r) == y + qsum (firstn i r) + nth i r 0). rewrite IH by lia. ring.
Qed.
(** After fraction [i] has got the weight [x]. *)
Lemma supplied_next nf i l x : (i < nf)%nat -> (S i < nf)%nat -> length l = nf -> Utils_Spec.all_nonneg l -> qsum (firstn i l) <= 1 -> supplied nf i l ->
  0 <= x <= nth i (renormalize_weights l i) 0 -> supplied nf (S i) (set_nth i x (renormalize_weights l i)).
Proof.
  intros Hi Hsi L N F Hs Hx.
  assert (D : distribution (renormalize_weights l i)) by (apply renorm_distribution; try assumption; destruct l; [cbn in L; lia|discriminate]).
  assert (Lr : length (renormalize_weights l i) = nf) by (rewrite renorm_length; exact L).
  set (r := renormalize_weights l i) in *.
  assert (E : nth_error r i = Some (nth i r 0)) by (apply nth_error_nth'; lia).
  assert (K : ~ qsum (skipn i l) == 0 \/ qsum (firstn i l) == 1) by (destruct Hs as [P|P]; [left; apply (supplied_sum nf); assumption|right; exact P]).
  assert (Fi : qsum (firstn i r) == qsum (firstn i l)).
  { pose proof (sum_same _ _ (renorm_keeps_earlier l i K)) as G. fold r in G. rewrite firstn_length_le in G by lia. exact G. }
  assert (Done : qsum (firstn i l) == 1 -> supplied nf (S i) (set_nth i x r)).
  { intro O. right. rewrite (set_nth_firstn _ _ _ _ E).
    assert (R : qsum (firstn (S i) r) == qsum (firstn i r) + nth i r 0).
    { apply firstn_next. lia. }
    assert (M : nth i r 0 <= 0).
    { pose proof (firstn_sum_le (S i) r (proj1 D)) as B. destruct D as (_ & D2). lra. }
    rewrite R, Fi, O. lra. }
  destruct Hs as [P|P]; [|exact (Done P)].
  destruct (Qlt_le_dec (qsum (firstn i l)) 1) as [Q1|Q1]; [|apply Done; lra].
  left. rewrite set_nth_other by lia.
  pose proof (supplied_sum nf i l Hi L N P) as Z. pose proof (same_nth _ _ (renorm_supplied l i Z) (nf - 1)) as G. fold r in G. rewrite G.
  rewrite app_nth2 by (rewrite firstn_length_le; lia). rewrite firstn_length_le by lia.
  set (g := fun y => y / qsum (skipn i l) * (1 - qsum (firstn i l))).
  assert (Hn : (nf - 1 - i < length (skipn i l))%nat) by (rewrite skipn_length; lia).
  rewrite (nth_indep _ 0 (g 0)) by (rewrite map_length; exact Hn). rewrite map_nth. rewrite nth_skipn_q. replace (i + (nf - 1 - i))%nat with (nf - 1)%nat by lia.
  unfold g. assert (0 < qsum (skipn i l)).
  { assert (0 <= qsum (skipn i l)); [|lra]. apply qsum_nonneg. intros y Hy. apply N. rewrite <- (firstn_skipn i l). apply in_or_app. auto. }
  assert (0 < nth (nf - 1) l 0 / qsum (skipn i l)) by (apply Qlt_shift_div_l; lra). nra.
Qed.

Section Kept.
Variables (sp : (nat -> nat -> Q) -> (nat -> Q) -> nat -> Q) (nf : nat) (k : cfg) (e : setup).
Hypothesis He : sound_setup nf k e.

Lemma fractions_kept : forall fs i w os w', (i + length fs = nf)%nat -> weights_ok nf k i w -> (forall fd, In fd fs -> posed sp k fd) ->
  fractions sp k i fs w = Ok (Some (os, w')) -> (forall o, In o os -> converged o = true) ->
  forall j, (j < number_of_cells k)%nat -> (fs = [] \/ supplied nf i (w j)) ->
  (forall m, (m < i)%nat -> nth m (w' j) 0 == nth m (w j) 0) /\ (forall m o, nth_error os m = Some o -> nth (i + m) (w' j) 0 == weight o j).
Proof.
  induction fs as [|[f d] fs IH]; intros i w os w' Hn Hw Hg H Hc j Hj Hsup; cbn [fractions] in H.
  { injection H as <- <-. split; [reflexivity|]. intros [|m] o C; discriminate C. }
  destruct Hsup as [C|Hsup]; [discriminate C|].
  cbn [length] in Hn. pose proof (start_weight nf k i w ltac:(lia) Hw) as Hstart.
  destruct (solve_fraction sp k f d _) as [[o|]|] eqn:E; cbn [bind] in H; try discriminate.
  destruct (fractions sp k (S i) fs _) as [[[os1 w1]|]|] eqn:E1; cbn [bind] in H; try discriminate. injection H as <- <-.
  assert (Hw0 : forall j, (j < number_of_cells k)%nat -> 0 <= memo (cells k) (fun c => nth i (renormalize_weights (w c) i) 0) j <= 1) by (intros j' Hj'; destruct (Hstart j' Hj') as (R1 & R2); rewrite R1; exact R2).
  assert (S2 : forall j, (j < number_of_cells k)%nat -> 0 <= weight o j <= nth i (renormalize_weights (w j) i) 0).
  { intros j' Hj'. destruct (posed_solution sp k (f, d) _ o (Hg _ (or_introl eq_refl)) (fun j Hj => proj1 (Hw0 j Hj)) E (Hc o (or_introl eq_refl))) as (_ & S2).
    specialize (S2 j' Hj'). rewrite (proj1 (Hstart j' Hj')) in S2. exact S2. }
  destruct (Hw j Hj) as (L & N & F).
  assert (Hnext : fs = [] \/ supplied nf (S i) (set_nth i (weight o j) (renormalize_weights (w j) i))).
  { destruct fs as [|fd fs]; [left; reflexivity|]. right. cbn [length] in Hn. apply supplied_next; try assumption; try lia. apply S2, Hj. }
  apply (IH (S i) _ os1 w1) with (j := j) in E1;
    [| lia | apply weights_next; [lia | exact Hw | exact S2] | intros; apply Hg; right; assumption | intros; apply Hc; right; assumption | exact Hj | exact Hnext].
  destruct E1 as (K1 & K2). split.
  - intros m Hm. rewrite (K1 m ltac:(lia)). rewrite set_nth_other by lia. apply (supplied_keeps nf); try assumption. lia.
  - intros [|m] o' Ho.
    + cbn in Ho. injection Ho as <-. replace (i + 0)%nat with i by lia. rewrite (K1 i ltac:(lia)), set_nth_this; [reflexivity|]. rewrite renorm_length. lia.
    + replace (i + S m)%nat with (S i + m)%nat by lia. apply K2. exact Ho.
Qed.

Lemma step_kept t0 s ws s' os : sound_state nf k s -> plain_winds sp nf k ws -> step sp k e t0 s ws = Ok (Some (s', os)) -> (forall o, In o os -> converged o = true) ->
  forall j, (j < number_of_cells k)%nat -> 0 < nth (nf - 1) (at_first e t0 s ws j) 0 -> kept s' os j.
Proof.
  intros Hs Hpl H Hc j Hj P. pose proof Hpl as (Hl & _). destruct (step_inv _ _ _ _ _ _ _ _ H) as (w & W & F & _).
  pose proof (start_fine sp nf k e He s ws t0 w Hs Hpl W) as Hw0. pose proof (reads_posed sp nf k e He s ws Hs Hpl) as Hg.
  assert (Ew : w j = at_first e t0 s ws j).
  { destruct He as (_ & Ht & _). unfold start_weights in W. rewrite Ht in W. unfold at_first. destruct t0; [destruct (bedcomp e)|]; injection W as <-; reflexivity. }
  refine (proj2 (fractions_kept (all_reads s ws) 0 w os (oldw s') _ Hw0 Hg F Hc j Hj _)); [rewrite reads_length; lia|].
  right. left. rewrite Ew. exact P.
Qed.
End Kept.

Lemma weights_kept sp nf k e t0 s ws s' os : sound_setup nf k e -> sound_state nf k s -> plain_winds sp nf k ws ->
  run sp k e t0 s [Some ws] = Ok (Some (s', [os])) -> (forall o, In o os -> converged o = true) ->
  forall j, (j < number_of_cells k)%nat -> 0 < nth (nf - 1) (at_first e t0 s ws j) 0 -> kept s' os j.
Proof.
  intros He Hs Hpl H. cbn [run] in H. destruct (step sp k e t0 s ws) as [[[s1 o1]|]|] eqn:E; cbn [bind] in H; try discriminate. injection H as <- <-.
  exact (step_kept sp nf k e He t0 s ws s1 o1 Hs Hpl E).
Qed.
