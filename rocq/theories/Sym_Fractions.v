(** Proofs about the order and the splitting of the fractions. *)
From Coq Require Import QArith Lia Lqa List Bool Arith Setoid Permutation.
From Verif Require Import Base Num Utils_Model Utils_Spec Utils_Proofs Solver_Model Solver_Spec Linear Solver_Proofs Solver_Iter Solver_Balance Solver_Cases Sym_Spec Sym_Proofs.
Import ListNotations.
Open Scope Q_scope.

(** * Weights that are a distribution stay what they are *)
Lemma all_zero l : Utils_Spec.all_nonneg l -> qsum l == 0 -> forall x, In x l -> x == 0.
Proof.
  induction l as [|a l IH]; intros Hn Hs x Hx. destruct Hx. unfold qsum in Hs. cbn [fold_right] in Hs. fold (qsum l) in Hs.
  assert (Hl : Utils_Spec.all_nonneg l) by (intros y Hy; apply Hn; right; exact Hy). pose proof (qsum_nonneg l Hl). pose proof (Hn a (or_introl eq_refl)).
  destruct Hx as [<-|Hx]. lra. apply (IH Hl); [lra | exact Hx].
Qed.
Lemma same_sym_map (f : Q -> Q) l : (forall x, In x l -> f x == x) -> same (map f l) l.
Proof. intros H. induction l; constructor. apply H. left. reflexivity. apply IHl. intros x Hx. apply H. right. exact Hx. Qed.
Lemma same_trans a b c : same a b -> same b c -> same a c.
Proof. unfold same. intros H. revert c. induction H; intros c Hc; inversion Hc; subst; constructor. etransitivity; eassumption. apply IHForall2. assumption. Qed.
Lemma same_refl a : same a a.
Proof. induction a; constructor. reflexivity. assumption. Qed.
Lemma same_nth a b n : same a b -> nth n a 0 == nth n b 0.
Proof. intros H. revert n. induction H; intros [|n]; cbn [nth]; try reflexivity. assumption. apply IHForall2. Qed.
Lemma same_sum a b : same a b -> qsum a == qsum b.
Proof. intros H. induction H; unfold qsum in *; cbn [fold_right]. reflexivity. rewrite H, IHForall2. reflexivity. Qed.
Lemma same_len a b : same a b -> length a = length b.
Proof. induction 1; cbn; congruence. Qed.
Lemma same_nonneg a b : same a b -> Utils_Spec.all_nonneg b -> Utils_Spec.all_nonneg a.
Proof. intros H. induction H; intros Hn z Hz. destruct Hz. destruct Hz as [<-|Hz]. rewrite H. apply Hn. left. reflexivity. apply IHForall2. intros q Hq. apply Hn. right. exact Hq. exact Hz. Qed.
Lemma renorm_same w ix : Utils_Spec.all_nonneg w -> qsum w == 1 -> same (renormalize_weights w ix) w.
Proof.
  intros Hn H1. pose proof (firstn_skipn_sum ix w) as Hf. destruct (Qeq_dec (qsum (skipn ix w)) 0) as [Hz|Hz].
  - unfold renormalize_weights. rewrite (normalize_zero 0) by exact Hz. rewrite map_map.
    assert (Hr : same (firstn ix w ++ map (fun _ : Q => 0 * (1 - qsum (firstn ix w))) (skipn ix w)) w).
    { assert (G : same (firstn ix w ++ map (fun _ : Q => 0 * (1 - qsum (firstn ix w))) (skipn ix w)) (firstn ix w ++ skipn ix w)); [|rewrite firstn_skipn in G; exact G].
      apply same_app. apply same_refl. apply (same_sym_map (fun _ => 0 * (1 - qsum (firstn ix w)))).
      intros x Hx. rewrite (all_zero (skipn ix w)) with (x := x). ring. intros y Hy. apply Hn. exact (skipn_in _ _ _ Hy). exact Hz. exact Hx. }
    eapply same_trans; [|exact Hr]. apply normalize_one. rewrite (same_sum _ _ Hr). exact H1.
  - eapply same_trans. apply renorm_supplied, Hz.
    assert (G : same (firstn ix w ++ map (fun x => x / qsum (skipn ix w) * (1 - qsum (firstn ix w))) (skipn ix w)) (firstn ix w ++ skipn ix w)); [|rewrite firstn_skipn in G; exact G].
    apply same_app. apply same_refl.
    apply (same_sym_map (fun x => x / qsum (skipn ix w) * (1 - qsum (firstn ix w)))). intros x _. setoid_replace (1 - qsum (firstn ix w)) with (qsum (skipn ix w)) by lra. field. exact Hz.
Qed.
Lemma set_same a b n x : same a b -> x == nth n b 0 -> same (set_nth n x a) b.
Proof. intros H. revert n. induction H; intros [|n] Hx; cbn [set_nth nth] in *; constructor; try assumption. apply IHForall2, Hx. Qed.
Lemma shares_nth gs n i : nth n (shares gs i) 0 = match nth_error gs n with Some g => snd g i | None => 0 end.
Proof. unfold shares. revert n. induction gs; intros [|n]; cbn; try reflexivity. apply IHgs. Qed.

(** * A class alone *)
Section Alone.
Variables (sp : (nat -> nat -> Q) -> (nat -> Q) -> nat -> Q) (k : cfg).
Hypothesis Hm : max_iter k <> 0%nat.
Lemma solve_compat f d w w' o : well_posed sp k f d w -> (forall i, (i < number_of_cells k)%nat -> w' i == w i) -> solve_fraction sp k f d w = Ok (Some o) ->
  exists o', solve_fraction sp k f d w' = Ok (Some o') /\ same_outcome (number_of_cells k) o o'.
Proof.
  intros (H1 & H2 & H3 & H4 & H5 & H6 & H7 & H8 & H9 & H10 & H11) Hw H. destruct (quiet_good k f H1 H2 H3 H4 H5) as (Hsolv & Hinv).
  apply solve_fraction_inv in H. symmetry in H. rewrite <- cells_eq in *.
  destruct (iterate_moved sp sp k k f f d d (fun i => i)) with (fuel := (max_iter k - 1)%nat) (w := w) (w' := w') (o := o) as (o' & E & Hsame);
    try assumption; try (intros; reflexivity); try (rewrite <- cells_eq; assumption); try (intros; assumption).
  - intros j Hj. exists j. split; [exact Hj | reflexivity].
  - intros v v' Hv i Hi. destruct (rc_of k i Hi) as (r & c & Hr & Hc & ->). destruct (border_spec k c Hc) as [[_ Hb] | [_ [B1 B2]]].
    + rewrite !rhs_rc by exact Hc. cbv zeta. destruct (Nat.eqb_spec c (nx k)). reflexivity. destruct (Nat.eqb_spec c 0). reflexivity. lia.
    + rewrite !rhs_implicit by assumption. rewrite (Hv _ Hi). reflexivity.
  - exists o'. split; [|exact Hsame]. rewrite solve_fraction_ok. f_equal. exact E. apply (quiet_runs k f H5). apply sensible_offsets, H1. exact Hm.
Qed.
(** With plenty of sand the first iteration is the last. *)
Lemma plenty_first f d w : well_posed sp k f d w -> plenty k ((f, d), w) ->
  exists o, solve_fraction sp k f d w = Ok (Some o) /\ converged o = true /\ weight o = w /\
    forall i, (i < number_of_cells k)%nat -> ct o i = sp (matrix k f) (rhs k f d w) i /\ pickup o i = qmin ((w i * Cu d i - ct o i) / T k * dt k) (mass d i).
Proof.
  intros (H1 & H2 & H3 & H4 & H5 & H6 & H7 & H8 & H9 & H10 & H11) Hp. destruct (quiet_good k f H1 H2 H3 H4 H5) as (Hsolv & Hinv).
  rewrite solve_fraction_ok; [|apply (quiet_runs k f H5) | apply sensible_offsets, H1 | exact Hm].
  rewrite <- cells_eq in *.
  assert (Hnn : forall i, (i < cells k)%nat -> 0 <= sp (matrix k f) (rhs k f d w) i) by (apply sol_nonneg; try assumption; rewrite <- cells_eq; assumption).
  destruct (tidy_nonneg_same k _ Hnn) as (c & Et & Ec).
  assert (Ea : anyn (cells k) (short k d w c) = false).
  { destruct (anyn (cells k) (short k d w c)) eqn:Eany; [|reflexivity]. exfalso. apply anyn_spec in Eany. destruct Eany as (i & Hi & Eany). unfold short in Eany. destruct (Qltb_spec (max_error k) (demand k d w c i - mass d i)); [|discriminate Eany].
    assert (Hsol : is_solution (number_of_cells k) (matrix k f) (rhs k f d w) (sp (matrix k f) (rhs k f d w))) by (rewrite <- cells_eq; apply H10; exact (Hsolv _)).
    specialize (Hp _ Hsol i). cbn [fst snd] in Hp. rewrite <- cells_eq in Hp. specialize (Hp Hi). unfold demand in *. rewrite (Ec i Hi) in *. lra. }
  exists {| ct := c; pickup := fun i => qmin (demand k d w c i) (mass d i); weight := w; converged := true |}.
  split. { f_equal. destruct (max_iter k - 1)%nat; cbn [iterate]; rewrite Et, Ea; reflexivity. }
  split; [reflexivity|]. split; [reflexivity|]. intros i Hi. cbn [ct pickup]. split. apply Ec, Hi. reflexivity.
Qed.
Lemma plenty_near f d w w' : well_posed sp k f d w -> plenty k ((f, d), w) -> (forall i, (i < number_of_cells k)%nat -> w' i == w i) ->
  exists o o', solve_fraction sp k f d w = Ok (Some o) /\ solve_fraction sp k f d w' = Ok (Some o') /\ same_outcome (number_of_cells k) o o' /\ forall i, (i < number_of_cells k)%nat -> weight o' i == w i.
Proof.
  intros H1 H2 H3. destruct (plenty_first f d w H1 H2) as (o & E & _ & Ew & _). destruct (solve_compat f d w w' o H1 H3 E) as (o' & E' & Hs).
  exists o, o'. split; [exact E|]. split; [exact E'|]. split; [exact Hs|]. intros i Hi. destruct Hs as (_ & Hs). destruct (Hs i Hi) as (_ & _ & ->). rewrite Ew. reflexivity.
Qed.

(** * All classes in turn *)
Definition alone (g : (flow * input) * (nat -> Q)) (o : outcome) : Prop :=
  exists o1, solve_fraction sp k (fst (fst g)) (snd (fst g)) (snd g) = Ok (Some o1) /\ same_outcome (number_of_cells k) o1 o.
Lemma turns all : shared_out k all -> (forall g, In g all -> Solver_Spec.all_nonneg (number_of_cells k) (snd g)) ->
  forall gs done w, all = done ++ gs -> (forall g, In g gs -> well_posed sp k (fst (fst g)) (snd (fst g)) (snd g) /\ plenty k g) ->
  (forall i, (i < number_of_cells k)%nat -> same (w i) (shares all i)) ->
  exists os w', fractions sp k (length done) (map fst gs) w = Ok (Some (os, w')) /\ Forall2 alone gs os /\ forall i, (i < number_of_cells k)%nat -> same (w' i) (shares all i).
Proof.
  intros Hsh Hnn. induction gs as [|[[f d] v] gs IH]; intros done w Hall Hg Hw.
  - exists [], w. split; [reflexivity|]. split; [constructor | exact Hw].
  - cbn [map fractions fst snd].
    assert (Hw1 : forall i, (i < number_of_cells k)%nat -> same (renormalize_weights (w i) (length done)) (shares all i)).
    { intros i Hi. specialize (Hw i Hi). eapply same_trans; [|exact Hw]. apply renorm_same.
      - apply (same_nonneg _ _ Hw). intros x Hx. unfold shares in Hx. apply in_map_iff in Hx. destruct Hx as (g & <- & Hin). apply Hnn; assumption.
      - rewrite (same_sum _ _ Hw). apply Hsh, Hi. }
    assert (Hv : forall i, (i < number_of_cells k)%nat -> nth (length done) (shares all i) 0 = v i).
    { intros i _. rewrite shares_nth, Hall, nth_error_app2, Nat.sub_diag by lia. reflexivity. }
    destruct (Hg _ (or_introl eq_refl)) as (Wp & Pl). cbn [fst snd] in Wp.
    destruct (plenty_near f d v (memo (cells k) (fun c => nth (length done) (renormalize_weights (w c) (length done)) 0)) Wp Pl) as (o1 & o & E1 & E & Hso & Hwo).
    { intros i Hi. rewrite memo_get by (rewrite cells_eq; exact Hi). rewrite (same_nth _ _ _ (Hw1 i Hi)), (Hv i Hi). reflexivity. }
    rewrite E. cbn [bind].
    destruct (IH (done ++ [((f, d), v)]) (fun c => set_nth (length done) (weight o c) (renormalize_weights (w c) (length done)))) as (os & w' & E2 & Hos & Hw').
    + rewrite <- app_assoc. exact Hall.
    + intros g Hin. apply Hg. right. exact Hin.
    + intros i Hi. apply set_same. apply Hw1, Hi. rewrite (Hv i Hi). apply Hwo, Hi.
    + rewrite app_length, Nat.add_1_r in E2. rewrite E2. cbn [bind]. exists (o :: os), w'. split; [reflexivity|]. split; [|exact Hw']. constructor; [|exact Hos].
      exists o1. split; assumption.
Qed.
End Alone.
Lemma each_alone sp k gs : all_supplied sp k gs -> exists os w', step_of sp k gs = Ok (Some (os, w')) /\
  Forall2 (fun g o => exists o1, solve_fraction sp k (fst (fst g)) (snd (fst g)) (snd g) = Ok (Some o1) /\ same_outcome (number_of_cells k) o1 o) gs os /\
  forall i, (i < number_of_cells k)%nat -> same (w' i) (shares gs i).
Proof.
  intros (Hm & Hsh & Hg). unfold step_of, solve, start_weights. cbn [bind]. apply (turns sp k Hm gs Hsh) with (done := []). intros g Hin. apply (Hg g Hin). reflexivity. exact Hg.
  intros i _. apply same_refl.
Qed.
Lemma same_outcome_sym n o o' : same_outcome n o o' -> same_outcome n o' o.
Proof. intros (H1 & H2). split. congruence. intros i Hi. destruct (H2 i Hi) as (A & B & C). repeat split; symmetry; assumption. Qed.
Lemma same_outcome_trans n a b c : same_outcome n a b -> same_outcome n b c -> same_outcome n a c.
Proof.
  intros (H1 & H2) (H3 & H4). split. congruence. intros i Hi. destruct (H2 i Hi) as (A & B & C). destruct (H4 i Hi) as (D & E & F).
  repeat split; etransitivity; eassumption.
Qed.
Lemma forall2_combine {A B} (P : A -> B -> Prop) l l' : Forall2 P l l' -> forall a b, In (a, b) (combine l l') -> P a b.
Proof. induction 1; intros a b Hin. destruct Hin. destruct Hin as [E|Hin]. injection E as <- <-. assumption. apply IHForall2, Hin. Qed.
Lemma shares_perm gs gs' i : Permutation gs gs' -> qsum (shares gs i) == qsum (shares gs' i).
Proof.
  intros H. unfold shares, qsum. induction H; cbn [map fold_right]. reflexivity. rewrite IHPermutation. reflexivity. ring. etransitivity; eassumption.
Qed.
Lemma any_order sp k gs gs' : all_supplied sp k gs -> Permutation gs gs' -> exists os w os' w', step_of sp k gs = Ok (Some (os, w)) /\ step_of sp k gs' = Ok (Some (os', w')) /\
  length os = length gs /\ length os' = length gs' /\
  forall g o o', In (g, o) (combine gs os) -> In (g, o') (combine gs' os') -> same_outcome (number_of_cells k) o o'.
Proof.
  intros H Hp. pose proof H as (Hm & Hsh & Hg).
  assert (H' : all_supplied sp k gs').
  { split; [exact Hm|]. split. intros i Hi. rewrite <- (shares_perm _ _ i Hp). apply Hsh, Hi. intros g Hin. apply Hg. apply (Permutation_in g (Permutation_sym Hp)), Hin. }
  destruct (each_alone sp k gs H) as (os & w & E & F & _). destruct (each_alone sp k gs' H') as (os' & w' & E' & F' & _). exists os, w, os', w'.
  split; [exact E|]. split; [exact E'|]. split; [clear - F; induction F; cbn; congruence|]. split; [clear - F'; induction F'; cbn; congruence|].
  intros g o o' Hin Hin'. destruct (forall2_combine _ _ _ F g o Hin) as (o1 & E1 & S1). destruct (forall2_combine _ _ _ F' g o' Hin') as (o2 & E2 & S2).
  rewrite E1 in E2. injection E2 as <-. eapply same_outcome_trans. apply same_outcome_sym, S1. exact S2.
Qed.

(** * Parts of a class *)
Section Part.
Variables (sp : (nat -> nat -> Q) -> (nat -> Q) -> nat -> Q) (k : cfg) (g : (flow * input) * (nat -> Q)) (a : Q).
Hypothesis Hm : max_iter k <> 0%nat.
Hypothesis Ha : 0 < a.
Hypothesis Wp : well_posed sp k (fst (fst g)) (snd (fst g)) (snd g).
Hypothesis Pl : plenty k g.
Hypothesis Hno : nothing_enters k g.
Let f := fst (fst g).
Let d := snd (fst g).
Let w := snd g.
Lemma part_posed : well_posed sp k (fst (fst (part a g))) (snd (fst (part a g))) (snd (part a g)).
Proof.
  destruct Wp as (H1 & H2 & H3 & H4 & H5 & H6 & H7 & H8 & H9 & H10 & H11). cbn [part fst snd]. do 6 (split; [assumption|]). split.
  - intros i Hi. destruct (H7 i Hi) as (A & B & C & D & E). cbn [lCt Cu0 Cu mass]. unfold capacity in *. cbn [Cuf Cu sat]. pose proof (mul_nn a _ (Qlt_le_weak _ _ Ha) A). pose proof (mul_nn a _ (Qlt_le_weak _ _ Ha) E). tauto.
  - do 3 (split; [assumption|]). intros i Hi. apply mul_nn. apply Qlt_le_weak, Ha. apply H11, Hi.
Qed.
Lemma part_rhs i : (i < cells k)%nat -> rhs k (fst (fst (part a g))) (snd (fst (part a g))) (snd (part a g)) i == a * rhs k f d w i.
Proof.
  intros Hi. destruct Wp as (_ & _ & _ & _ & _ & H6 & _). destruct (rc_of k i Hi) as (r & c & Hr & Hc & ->). destruct (border_spec k c Hc) as [[_ Hb] | [_ [B1 B2]]].
  - rewrite !rhs_rc by exact Hc. cbv zeta. cbn [part fst snd Cu0]. fold f d. destruct (Hno r Hr) as (N1 & N2). fold f d in N1, N2.
    destruct (Nat.eqb_spec c (nx k)) as [->|]. change (Cu0 d (r * width k + nx k)%nat) with (at_cell k (Cu0 d) r (nx k)). rewrite N2. ring.
    destruct (Nat.eqb_spec c 0) as [->|]; [|lia]. change (Cu0 d (r * width k + 0)%nat) with (at_cell k (Cu0 d) r 0). rewrite N1. ring.
  - rewrite !rhs_implicit by assumption. cbn [part fst snd lCt]. unfold capacity. cbn [Cuf Cu sat]. fold f d w. destruct (trunk k); ring.
Qed.
Lemma mulv_scale n A x i : mulv n A (fun j => a * x j) i == a * mulv n A x i.
Proof. unfold mulv. rewrite <- sumn_scale. apply sumn_ext. intros j _. ring. Qed.
Lemma part_solution x : is_solution (number_of_cells k) (matrix k f) (rhs k f d w) x ->
  is_solution (number_of_cells k) (matrix k f) (rhs k (fst (fst (part a g))) (snd (fst (part a g))) (snd (part a g))) (fun j => a * x j).
Proof.
  intros Hx i Hi. rewrite <- cells_eq in *. rewrite (part_rhs i Hi). rewrite <- (Hx i Hi).
  apply (mulv_scale (cells k) (matrix k f) x i).
Qed.
Lemma unique_solution y x z : is_solution (number_of_cells k) (matrix k f) y x -> is_solution (number_of_cells k) (matrix k f) y z -> forall i, (i < number_of_cells k)%nat -> x i == z i.
Proof.
  destruct Wp as (H1 & H2 & H3 & H4 & H5 & _). destruct (quiet_good k f H1 H2 H3 H4 H5) as (_ & Hinv). rewrite <- cells_eq. apply (inverse_unique k f y x z Hinv).
Qed.
Lemma exact_here y : is_solution (number_of_cells k) (matrix k f) y (sp (matrix k f) y).
Proof.
  destruct Wp as (H1 & H2 & H3 & H4 & H5 & _ & _ & _ & _ & H10 & _). destruct (quiet_good k f H1 H2 H3 H4 H5) as (Hsolv & _). apply H10. destruct (Hsolv y) as (x & Hx).
  exists x. rewrite <- cells_eq. exact Hx.
Qed.
Lemma part_plenty : plenty k (part a g).
Proof.
  intros x Hx i Hi. change (fst (fst (part a g))) with f in Hx. pose proof (exact_here (rhs k f d w)) as Hy. set (y := sp (matrix k f) (rhs k f d w)) in *.
  rewrite (unique_solution _ _ _ Hx (part_solution y Hy) i Hi). cbn [part fst snd mass Cu]. specialize (Pl y Hy i Hi). fold d in Pl. fold w in Pl. fold d w.
  setoid_replace ((a * w i * Cu d i - a * y i) / T k * dt k) with (a * ((w i * Cu d i - y i) / T k * dt k)).
  - rewrite !(Qmult_comm a). apply mul_le_r. lra. exact Pl.
  - unfold Qdiv. ring.
Qed.
Lemma part_outcome o oa : solve_fraction sp k f d w = Ok (Some o) -> solve_fraction sp k (fst (fst (part a g))) (snd (fst (part a g))) (snd (part a g)) = Ok (Some oa) ->
  converged o = true /\ converged oa = true /\ forall i, (i < number_of_cells k)%nat -> ct oa i == a * ct o i /\ pickup oa i == a * pickup o i /\ weight oa i == a * weight o i.
Proof.
  intros E Ea. assert (Pl' : plenty k ((f, d), w)) by exact Pl. destruct (plenty_first sp k Hm f d w Wp Pl') as (o' & E' & C & W & P). rewrite E in E'. injection E' as <-.
  destruct (plenty_first sp k Hm (fst (fst (part a g))) (snd (fst (part a g))) (snd (part a g)) part_posed part_plenty) as (o' & E' & C' & W' & P'). rewrite Ea in E'. injection E' as <-.
  split; [exact C|]. split; [exact C'|]. intros i Hi. destruct (P i Hi) as (P1 & P2). destruct (P' i Hi) as (Q1 & Q2).
  assert (Hc : ct oa i == a * ct o i).
  { rewrite P1, Q1. change (fst (fst (part a g))) with f. apply (unique_solution _ _ _ (exact_here _) (part_solution _ (exact_here _)) i Hi). }
  split; [exact Hc|]. split.
  - rewrite P2, Q2. cbn [part fst snd Cu mass]. fold d w.
    assert (Ed : (a * w i * Cu d i - ct oa i) / T k * dt k == a * ((w i * Cu d i - ct o i) / T k * dt k)) by (rewrite Hc; unfold Qdiv; ring).
    set (u := (w i * Cu d i - ct o i) / T k * dt k) in *. set (m := mass d i). set (v := (a * w i * Cu d i - ct oa i) / T k * dt k) in *. clearbody u m v.
    unfold qmin. destruct (Qle_bool_spec v (a * m)) as [L|L], (Qle_bool_spec u m) as [M|M]; try lra.
    + exfalso. assert (H : 0 < a * (u - m)) by (apply mul_pos; lra). lra.
    + exfalso. pose proof (mul_nn a (m - u) ltac:(lra) ltac:(lra)). lra.
  - rewrite W, W'. reflexivity.
Qed.
End Part.
Lemma forall2_app_l {A B} (P : A -> B -> Prop) l1 l2 l' : Forall2 P (l1 ++ l2) l' -> exists a b, l' = a ++ b /\ Forall2 P l1 a /\ Forall2 P l2 b.
Proof.
  revert l'. induction l1 as [|x l1 IH]; intros l' H. exists [], l'. repeat split. constructor. exact H.
  inversion H as [|? y ? l'' Hxy Hr]; subst. destruct (IH _ Hr) as (a & b & -> & H1 & H2). exists (y :: a), b. repeat split. constructor; assumption. exact H2.
Qed.
Lemma alone_same sp k gs os os' : Forall2 (alone sp k) gs os -> Forall2 (alone sp k) gs os' -> Forall2 (same_outcome (number_of_cells k)) os os'.
Proof.
  intros H. revert os'. induction H as [|g o gs os (o1 & E & S) H IH]; intros os' H'; inversion H' as [|? o' ? os'' (o2 & E' & S') Hr]; subst; constructor.
  rewrite E in E'. injection E' as <-. eapply same_outcome_trans. apply same_outcome_sym, S. exact S'. apply IH, Hr.
Qed.
Lemma split_class sp k gs1 g gs2 a : all_supplied sp k (gs1 ++ g :: gs2) -> nothing_enters k g -> 0 < a -> a < 1 ->
  exists os1 o os2 w os1' oa ob os2' w',
    step_of sp k (gs1 ++ g :: gs2) = Ok (Some (os1 ++ o :: os2, w)) /\ step_of sp k (gs1 ++ part a g :: part (1 - a) g :: gs2) = Ok (Some (os1' ++ oa :: ob :: os2', w')) /\
    length os1 = length gs1 /\ length os1' = length gs1 /\
    Forall2 (same_outcome (number_of_cells k)) os1 os1' /\ Forall2 (same_outcome (number_of_cells k)) os2 os2' /\ together (number_of_cells k) oa ob o.
Proof.
  intros H Hno H0 H1. pose proof H as (Hm & Hsh & Hg).
  destruct (Hg g ltac:(apply in_or_app; right; left; reflexivity)) as (Wp & Pl).
  assert (H1a : 0 < 1 - a) by lra.
  assert (H' : all_supplied sp k (gs1 ++ part a g :: part (1 - a) g :: gs2)).
  { split; [exact Hm|]. split.
    - intros i Hi. etransitivity; [|exact (Hsh i Hi)]. unfold shares. rewrite !map_app, !qsum_app. unfold qsum. cbn [map fold_right]. unfold part. cbn [snd]. ring.
    - intros h Hin. apply in_app_or in Hin. destruct Hin as [Hin | [<- | [<- | Hin]]].
      + apply Hg. apply in_or_app. left. exact Hin.
      + split. apply part_posed; assumption. apply (part_plenty sp k g a); assumption.
      + split. apply part_posed; assumption. apply (part_plenty sp k g (1 - a)); assumption.
      + apply Hg. apply in_or_app. right. right. exact Hin. }
  destruct (each_alone sp k _ H) as (os & w & E & F & _). destruct (each_alone sp k _ H') as (os' & w' & E' & F' & _).
  apply forall2_app_l in F. destruct F as (os1 & r & -> & F1 & F2). inversion F2 as [|? o ? os2 (o1 & Eo & So) F3]; subst.
  apply forall2_app_l in F'. destruct F' as (os1' & r' & -> & F1' & F2'). inversion F2' as [|? oa ? r2 (oa1 & Ea & Sa) F3']; subst. inversion F3' as [|? ob ? os2' (ob1 & Eb & Sb) F4']; subst.
  exists os1, o, os2, w, os1', oa, ob, os2', w'. split; [exact E|]. split; [exact E'|].
  split; [clear - F1; induction F1; cbn; congruence|]. split; [clear - F1'; induction F1'; cbn; congruence|].
  split; [apply (alone_same sp k gs1); assumption|]. split; [apply (alone_same sp k gs2); assumption|].
  destruct (part_outcome sp k g a Hm H0 Wp Pl Hno o1 oa1 Eo Ea) as (C1 & C2 & P1). destruct (part_outcome sp k g (1 - a) Hm H1a Wp Pl Hno o1 ob1 Eo Eb) as (_ & C3 & P2).
  destruct So as (So1 & So2). destruct Sa as (Sa1 & Sa2). destruct Sb as (Sb1 & Sb2). split; [congruence|]. split; [congruence|].
  intros i Hi. destruct (So2 i Hi) as (-> & -> & ->). destruct (Sa2 i Hi) as (-> & -> & ->). destruct (Sb2 i Hi) as (-> & -> & ->).
  destruct (P1 i Hi) as (-> & -> & ->). destruct (P2 i Hi) as (-> & -> & ->). repeat split; ring.
Qed.

(** * The weights of the parts *)
Definition cut (a : Q) (l1 : list Q) (x : Q) (l2 : list Q) : list Q := l1 ++ a * x :: (1 - a) * x :: l2.
Lemma split_at_cut a l1 x l2 : split_at (length l1) a (l1 ++ x :: l2) = cut a l1 x l2.
Proof.
  unfold split_at, cut. rewrite firstn_app, Nat.sub_diag, firstn_all, app_nil_r, app_nth2, Nat.sub_diag by lia. cbn [nth]. do 3 f_equal.
  replace (S (length l1)) with (length (l1 ++ [x])) by (rewrite app_length; cbn; lia). change (l1 ++ x :: l2) with (l1 ++ [x] ++ l2). rewrite app_assoc, skipn_app, skipn_all, Nat.sub_diag. reflexivity.
Qed.
Lemma twice_at_cut l1 x l2 : twice_at (length l1) (l1 ++ x :: l2) = l1 ++ x :: x :: l2.
Proof.
  unfold twice_at. rewrite firstn_app, Nat.sub_diag, firstn_all, app_nil_r, app_nth2, Nat.sub_diag by lia. cbn [nth]. do 3 f_equal.
  replace (S (length l1)) with (length (l1 ++ [x])) by (rewrite app_length; cbn; lia). change (l1 ++ x :: l2) with (l1 ++ [x] ++ l2). rewrite app_assoc, skipn_app, skipn_all, Nat.sub_diag. reflexivity.
Qed.
Lemma quotient_compat x x' y y' : x == x' -> y == y' -> quotient 0 x y == quotient 0 x' y'.
Proof.
  intros H1 H2. unfold quotient. destruct (Qeq_bool y 0) eqn:E, (Qeq_bool y' 0) eqn:E'; try reflexivity.
  - apply Qeq_bool_eq in E. apply Qeq_bool_neq in E'. exfalso. apply E'. rewrite <- H2. exact E.
  - apply Qeq_bool_eq in E'. apply Qeq_bool_neq in E. exfalso. apply E. rewrite H2. exact E'.
  - rewrite H1, H2. reflexivity.
Qed.
Lemma quotient_scale a x y : quotient 0 (a * x) y == a * quotient 0 x y.
Proof. unfold quotient. destruct (Qeq_bool y 0). ring. unfold Qdiv. ring. Qed.
Lemma map2_app {A B C} (h : A -> B -> C) a1 b1 a2 b2 : length a1 = length b1 -> map2 h (a1 ++ a2) (b1 ++ b2) = map2 h a1 b1 ++ map2 h a2 b2.
Proof. revert b1. induction a1 as [|x a1 IH]; intros [|y b1] H; try discriminate; cbn [map2 app]. reflexivity. f_equal. apply IH. injection H as H. exact H. Qed.
Lemma same_map2 (h h' : Q -> Q -> Q) : forall a a' b b', (forall x x' y y', x == x' -> y == y' -> h x y == h' x' y') -> same a a' -> same b b' -> same (map2 h a b) (map2 h' a' b').
Proof. intros a a' b b' Hh H. revert b b'. induction H; intros b b' Hb; inversion Hb; subst; cbn [map2]; constructor. apply Hh; assumption. apply IHForall2. assumption. Qed.
Lemma cut_sum a l1 x l2 : qsum (cut a l1 x l2) == qsum (l1 ++ x :: l2).
Proof. unfold cut. rewrite !qsum_app. unfold qsum. cbn [fold_right]. ring. Qed.
Lemma map2_const_map (fill s : Q) l : map2 (quotient fill) l (map (fun _ => s) l) = map (fun x => quotient fill x s) l.
Proof. induction l; cbn [map map2]. reflexivity. f_equal. exact IHl. Qed.
Lemma normalize_cut a l l1 x l2 : same l (cut a l1 x l2) ->
  same (normalize 0 l) (cut a (map (fun y => quotient 0 y (qsum (l1 ++ x :: l2))) l1) (quotient 0 x (qsum (l1 ++ x :: l2))) (map (fun y => quotient 0 y (qsum (l1 ++ x :: l2))) l2)).
Proof.
  intros H. assert (Hs : qsum l == qsum (l1 ++ x :: l2)) by (rewrite (same_sum _ _ H); apply cut_sum). set (s := qsum (l1 ++ x :: l2)) in *. unfold normalize, normalize_ref. rewrite map2_const_map.
  eapply same_trans with (b := map (fun y => quotient 0 y s) (cut a l1 x l2)).
  - set (l' := cut a l1 x l2) in *. clearbody s l'. generalize (qsum l) Hs. clear Hs. intros t Ht. induction H; cbn [map]; constructor. apply quotient_compat; assumption. assumption.
  - unfold cut. rewrite map_app. cbn [map]. apply same_app. apply same_refl. constructor. apply quotient_scale. constructor. apply quotient_scale. apply same_refl.
Qed.
Lemma normalize_whole l1 x l2 : normalize 0 (l1 ++ x :: l2) =
  map (fun y => quotient 0 y (qsum (l1 ++ x :: l2))) l1 ++ quotient 0 x (qsum (l1 ++ x :: l2)) :: map (fun y => quotient 0 y (qsum (l1 ++ x :: l2))) l2.
Proof. unfold normalize, normalize_ref. rewrite map2_const_map, map_app. reflexivity. Qed.
Lemma weights_cut bi a c1 c c2 u1 u u2 m1 m m2 : length c1 = length u1 -> length c1 = length m1 -> length c2 = length u2 -> length c2 = length m2 ->
  same (compute_weights bi (cut a c1 c c2) (u1 ++ u :: u :: u2) (cut a m1 m m2)) (split_at (length c1) a (compute_weights bi (c1 ++ c :: c2) (u1 ++ u :: u2) (m1 ++ m :: m2))).
Proof.
  intros L1 L2 L3 L4. unfold compute_weights.
  set (wa1 := map2 (quotient 0) c1 u1). set (wa2 := map2 (quotient 0) c2 u2). set (x := quotient 0 c u).
  assert (Ewa : w_air (c1 ++ c :: c2) (u1 ++ u :: u2) = wa1 ++ x :: wa2) by (unfold w_air, normalize_ref; rewrite map2_app by exact L1; reflexivity).
  assert (Ewa' : same (w_air (cut a c1 c c2) (u1 ++ u :: u :: u2)) (cut a wa1 x wa2)).
  { unfold w_air, normalize_ref, cut. rewrite map2_app by exact L1. cbn [map2]. apply same_app. apply same_refl. constructor. apply quotient_scale. constructor. apply quotient_scale. apply same_refl. }
  rewrite Ewa. set (S0 := qsum (m1 ++ m :: m2)). set (h1 := map (fun y => quotient 0 y S0) m1). set (h2 := map (fun y => quotient 0 y S0) m2). set (y := quotient 0 m S0).
  assert (Ewb : w_bed (m1 ++ m :: m2) = h1 ++ y :: h2) by (unfold w_bed; apply normalize_whole).
  assert (Ewb' : same (w_bed (cut a m1 m m2)) (cut a h1 y h2)) by (unfold w_bed; apply normalize_cut, same_refl).
  rewrite Ewb. assert (Hl1 : length wa1 = length h1) by (unfold wa1, h1; rewrite map2_length, map_length by exact L1; exact L2).
  set (W := w_air (cut a c1 c c2) (u1 ++ u :: u :: u2)) in *.
  assert (Es : qsum W == qsum (wa1 ++ x :: wa2)) by (rewrite (same_sum _ _ Ewa'); apply cut_sum).
  set (fr := 1 - qmin 1 ((1 - bi) * qsum (wa1 ++ x :: wa2))). set (fr' := 1 - qmin 1 ((1 - bi) * qsum W)).
  assert (Ef : fr' == fr). { unfold fr, fr'. rewrite (qmin_compat 1 1 ((1 - bi) * qsum W) ((1 - bi) * qsum (wa1 ++ x :: wa2))). reflexivity. reflexivity. rewrite Es. reflexivity. }
  set (h := fun p q => (1 - bi) * p + fr * q). set (h' := fun p q => (1 - bi) * p + fr' * q).
  assert (Em : map2 h (wa1 ++ x :: wa2) (h1 ++ y :: h2) = map2 h wa1 h1 ++ h x y :: map2 h wa2 h2) by (rewrite map2_app by exact Hl1; reflexivity).
  rewrite Em, normalize_whole. set (q1 := map2 h wa1 h1). set (q2 := map2 h wa2 h2). set (z := h x y).
  assert (Em' : same (map2 h' W (w_bed (cut a m1 m m2))) (cut a q1 z q2)).
  { eapply same_trans. apply (same_map2 h' h); [|exact Ewa' | exact Ewb']. intros p p' q q' Hp Hq. unfold h, h'. rewrite Hp, Hq, Ef. reflexivity.
    unfold cut. rewrite map2_app by exact Hl1. cbn [map2]. apply same_app. apply same_refl. constructor. unfold z, h. ring. constructor. unfold z, h. ring. apply same_refl. }
  eapply same_trans. apply (normalize_cut a _ _ _ _ Em').
  assert (Lq : length c1 = length (map (fun y0 => quotient 0 y0 (qsum (q1 ++ z :: q2))) q1)) by (unfold q1; rewrite map_length, map2_length by exact Hl1; unfold wa1; rewrite map2_length by exact L1; reflexivity).
  rewrite Lq, split_at_cut. apply same_refl.
Qed.
Lemma split_list n (l : list Q) : (n < length l)%nat -> exists l1 x l2, l = l1 ++ x :: l2 /\ length l1 = n.
Proof. intros H. destruct (nth_split l 0 H) as (l1 & l2 & E & L). exists l1, (nth n l 0), l2. split; assumption. Qed.
Lemma weights_split bi n a cs us ms : (n < length cs)%nat -> length us = length cs -> length ms = length cs ->
  same (compute_weights bi (split_at n a cs) (twice_at n us) (split_at n a ms)) (split_at n a (compute_weights bi cs us ms)).
Proof.
  intros Hn L1 L2. destruct (split_list n cs Hn) as (c1 & c & c2 & -> & E1). destruct (split_list n us ltac:(lia)) as (u1 & u & u2 & -> & E2). destruct (split_list n ms ltac:(lia)) as (m1 & m & m2 & -> & E3).
  rewrite !app_length in *. cbn [length] in *. rewrite <- E1 at 1. rewrite split_at_cut. rewrite <- E2 at 1. rewrite twice_at_cut. rewrite <- E3 at 1. rewrite split_at_cut. rewrite <- E1. apply weights_cut; lia.
Qed.
