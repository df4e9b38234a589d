(** Statements for Pieter_Props.v, put together from the lemmas, and concrete cases. *)
From Coq Require Import QArith Lia Lqa List Bool Arith Setoid.
From Verif Require Import Base Num Utils_Model Solver_Model Solver_Spec Linear Solver_Proofs Solver_Iter Solver_Balance Solver_Cases Pieter_Model Pieter_Spec Pieter_Proofs Pieter_Coefs Pieter_Balance Pieter_Unique Pieter_Whole Pieter_Outcome Pieter_Uniform.
Import ListNotations.
Open Scope Q_scope.

(** * Statements *)
Lemma p_one (k : pcfg) f : workable k -> rectangular k f -> known_ends k -> sideways_fine k f -> forall y,
  exists x, is_solution (number_of_cells k) (pmatrix k f) y x /\ forall z, is_solution (number_of_cells k) (pmatrix k f) y z -> forall i, (i < number_of_cells k)%nat -> z i == x i.
Proof. exact (one k f). Qed.
Lemma p_nonneg sp (k : pcfg) f d w x : orderly k f d w x -> exact_solver (number_of_cells k) (pmatrix k f) sp ->
  exists o, pieter_fraction sp k f d w x = Ok (Some o) /\ forall i, (i < number_of_cells k)%nat -> 0 <= ct o i /\ 0 <= weight o i <= w i.
Proof. exact (result_nonneg sp k f d w x). Qed.
Lemma p_bounded sp (k : pcfg) f d w x u v M : orderly k f d w x -> exact_solver (number_of_cells k) (pmatrix k f) sp -> uniform_wind k f u v -> open_ends k u v -> pbounded k d w x M ->
  exists o, pieter_fraction sp k f d w x = Ok (Some o) /\ forall i, (i < number_of_cells k)%nat -> 0 <= ct o i <= M.
Proof. intros. eapply result_bounded; eassumption. Qed.
Lemma p_cell sp (k : pcfg) f d w x r c : workable k -> rectangular k f -> known_ends k -> sideways_fine k f -> exact_solver (number_of_cells k) (pmatrix k f) sp -> trunk k = true -> no_side_wind_in_1d k f ->
  within k r c -> free_column k c -> let z := improve sp k f d w x in
  area f r c * (at_cell k z r c - at_cell k (lCt d) r c) / dt k ==
  area f r c * (given k (alpha k) d w (as_grid k x) r c - weighted (alpha k) (as_grid k z) (as_grid k (lCt d)) r c / T k) + brought k f d (weighted (alpha k) (as_grid k z) (as_grid k (lCt d))) r c.
Proof. intros H1 H2 H3 H4 H5 H6 H7 [H8 H9] H10. apply any_cell; assumption. Qed.
Lemma p_oblique sp (k : pcfg) f d w x r c : workable k -> rectangular k f -> known_ends k -> sideways_fine k f -> exact_solver (number_of_cells k) (pmatrix k f) sp -> trunk k = true -> ny k = 0%nat ->
  within k r c -> free_column k c -> let z := improve sp k f d w x in
  area f r c * (at_cell k z r c - at_cell k (lCt d) r c) / dt k + ds f r c * (qabs (un f r c) * (alpha k * (at_cell k z r c - at_cell k x r c))) ==
  area f r c * (given k (alpha k) d w (as_grid k x) r c - weighted (alpha k) (as_grid k z) (as_grid k (lCt d)) r c / T k) + brought k f d (weighted (alpha k) (as_grid k z) (as_grid k (lCt d))) r c.
Proof. intros H1 H2 H3 H4 H5 H6 H7 [H8 H9] H10. apply any_oblique; assumption. Qed.
Lemma p_balance sp (k : pcfg) f d w x o r c : orderly k f d w x -> exact_solver (number_of_cells k) (pmatrix k f) sp -> ample k d w -> no_side_wind_in_1d k f ->
  pieter_fraction sp k f d w x = Ok (Some o) -> within k r c -> free_column k c -> 0 <= astray k f d o r c <= max_error k * area f r c.
Proof. intros H1 H2 H3 H4 H5 [H6 H7] H8. apply (result_balance sp k f d w x H1 H2 o H3 H4 H5 r c H6 H7 H8). Qed.
Lemma p_total sp (k : pcfg) f d w x o : orderly k f d w x -> exact_solver (number_of_cells k) (pmatrix k f) sp -> ample k d w -> no_side_wind_in_1d k f ->
  pieter_fraction sp k f d w x = Ok (Some o) -> 0 <= all_astray k f d o <= max_error k * over_inside k (area f).
Proof. exact (result_total sp k f d w x o). Qed.
Lemma p_settled sp (k : pcfg) f d w x u v C : workable k -> rectangular k f -> known_ends k -> uniform_wind k f u v -> exact_solver (number_of_cells k) (pmatrix k f) sp ->
  psaturated k d w x C -> open_ends k u v -> trunk k = true \/ v == 0 -> 0 <= C -> 0 <= max_error k -> max_iter k <> 0%nat ->
  exists o, pieter_fraction sp k f d w x = Ok (Some o) /\ converged o = true /\ forall i, (i < number_of_cells k)%nat -> ct o i == C /\ pickup o i == 0 /\ weight o i = w i.
Proof. intros. eapply settled; eassumption. Qed.
Lemma p_grows sp (k : pcfg) f d w x u v n C c : oblique k f d w x u v n C c -> exact_solver (number_of_cells k) (pmatrix k f) sp ->
  exists o, pieter_fraction sp k f d w x = Ok (Some o) /\ converged o = true /\ forall i, (i < number_of_cells k)%nat -> c + n * C / (n + v * T k) <= ct o i /\ weight o i = w i.
Proof. exact (oblique_grows sp k f d w x u v n C c). Qed.
Lemma prescribed_column (k : pcfg) c : c = 0%nat /\ offshore k = Constant \/ c = nx k /\ onshore k = Constant -> ~ free_column k c.
Proof. unfold free_column. tauto. Qed.
Lemma p_kept sp (k : pcfg) f d w x : orderly k f d w x -> exact_solver (number_of_cells k) (pmatrix k f) sp -> no_side_wind k f -> trunk k = true ->
  exists o, pieter_fraction sp k f d w x = Ok (Some o) /\ forall r c, within k r c -> c = 0%nat /\ offshore k = Constant \/ c = nx k /\ onshore k = Constant -> at_cell k (ct o) r c == at_cell k x r c.
Proof.
  intros H1 H2 H3 H4. destruct (result_ends sp k f d w x H1 H2 H3) as (o & n & E & _ & P). exists o. split. exact E. intros r c [Hr Hc] F.
  rewrite (P r c Hr Hc (prescribed_column k c F)). unfold extra. rewrite H4. ring.
Qed.
Lemma p_added sp (k : pcfg) f d w x : orderly k f d w x -> exact_solver (number_of_cells k) (pmatrix k f) sp -> no_side_wind k f -> trunk k = false ->
  exists o n, pieter_fraction sp k f d w x = Ok (Some o) /\ (1 <= n)%nat /\ forall r, (r <= ny k)%nat ->
    (offshore k = Constant -> at_cell k (ct o) r 0 == at_cell k x r 0 + inject_Z (Z.of_nat n) * constant_offshore_flux k) /\
    (onshore k = Constant -> at_cell k (ct o) r (nx k) == at_cell k x r (nx k) + inject_Z (Z.of_nat n) * constant_onshore_flux k).
Proof.
  intros H1 H2 H3 H4. pose proof H1 as ((_ & HX & _) & _). destruct (result_ends sp k f d w x H1 H2 H3) as (o & n & E & Hn & P). exists o, n. split. exact E. split. exact Hn. intros r Hr. split; intros F.
  - rewrite (P r 0%nat Hr (Nat.le_0_l _) (prescribed_column k _ (or_introl (conj eq_refl F)))). unfold extra. rewrite H4. reflexivity.
  - rewrite (P r (nx k) Hr (le_n _) (prescribed_column k _ (or_intror (conj eq_refl F)))). unfold extra. rewrite H4. destruct (Nat.eqb_spec (nx k) 0); [lia|]. reflexivity.
Qed.
Lemma p_supply sp (k : pcfg) f d w x o : orderly k f d w x -> exact_solver (number_of_cells k) (pmatrix k f) sp -> pieter_fraction sp k f d w x = Ok (Some o) -> converged o = true ->
  forall i, (i < number_of_cells k)%nat -> pickup o i <= mass d i + max_error k.
Proof. intros. eapply result_supply; eassumption. Qed.

Lemma row_pos n A z i : offdiag_nonpos n A -> (i < n)%nat -> (forall j, (j < n)%nat -> 0 <= z j) -> 0 < mulv n A z i -> 0 < z i.
Proof.
  intros HO Hi Hz HP. destruct (Qlt_le_dec 0 (z i)); [assumption|]. exfalso. specialize (Hz i Hi) as Hzi. assert (Z0 : z i == 0) by lra.
  assert (mulv n A z i <= sumn n (fun _ => 0)).
  { unfold mulv. apply sumn_le. intros j Hj. destruct (Nat.eq_dec i j) as [<-|Hne]. rewrite Z0. lra. specialize (HO i j Hi Hj Hne). assert (0 <= (- A i j) * z j) by (apply mul_nn; [lra | apply Hz, Hj]). lra. }
  rewrite sumn_zero in H by reflexivity. lra.
Qed.
Lemma p_moving sp (k : pcfg) f d w x r c : orderly k f d w x -> exact_solver (number_of_cells k) (pmatrix k f) sp -> within k r c -> free_column k c ->
  0 < at_cell k w r c * at_cell k (Cu d) r c -> 0 < at_cell k (mass d) r c -> exists o, pieter_fraction sp k f d w x = Ok (Some o) /\ 0 < at_cell k (ct o) r c.
Proof.
  intros Ho Hsp [Hr Hc] F Hwc Hm. pose proof Ho as (O1 & O2 & O3 & O4 & O5 & O6 & O7 & O8 & O9 & O10 & O11 & O12 & O13). pose proof O1 as (_ & HX & Hdt & HT & _).
  pose proof (in_grid k r c Hr Hc) as Hi. unfold at_cell in *. change (S (nx k)) with (width k) in *. set (i := (r * width k + c)%nat) in *.
  destruct (run sp k f d w x Ho Hsp (fun w' _ => 0 < w' i * Cu d i)) as (o & w' & x' & E & J & W & X & P & _).
  - exact Hwc.
  - intros w' x' c0 W X C J _ _. rewrite memo_get by (rewrite cells_eq; exact Hi). destruct (reduced_nn k d O1 O11 O9 w' c0 i Hi (proj1 (W i Hi)) (C i Hi)) as (_ & R2 & _). destruct (short k d w' c0 i) eqn:S0.
    + rewrite (R2 eq_refl). specialize (C i Hi). assert (0 < mass d i * T k / dt k) by (apply mul_pos; [apply mul_pos; assumption | apply Qinv_lt_0_compat, Hdt]). lra.
    + unfold reduced. rewrite S0. exact J.
  - exists o. split. exact E. destruct (P i Hi) as (P1 & _). rewrite P1. set (z := improve sp k f d w' x').
    apply (row_pos (cells k) (pmatrix k f) z i (npos k f O1 O2 O3)); [rewrite cells_eq; exact Hi | | ].
    { intros j Hj. rewrite cells_eq in Hj. apply (improve_nn sp k f d w x Ho Hsp w' x'); [intros l Hl; apply W, Hl | exact X | exact Hj]. }
    unfold i, z. rewrite (row_new sp k f d O1 O2 O3 O4 Hsp O6 w' x' r c Hr Hc F), (forgotten_0 k f d O1 O7 x' r c Hr Hc), (eroded_cases k f d O1 O2 O6 w' x' r c Hr Hc). fold i.
    destruct (rates k f O1 O2 r c Hr Hc) as [R1 R2]. pose proof (outside_nn k f d O1 O2 r c O5 O11 Hr Hc) as OUT. destruct (area_pos k f O2 r c Hr Hc) as (_ & Ds & _). destruct (O11 i Hi) as (I1 & _). specialize (X i Hi) as Xi.
    assert (0 <= only (trunk k) (dsdn f r c / dt k * cell k (lCt d) r c)) by (unfold only; destruct (trunk k); [apply mul_nn; [lra | exact I1] | lra]).
    assert (0 < dsdn f r c / T k * qmin (w' i * Cu d i) (mass d i + x' i)) by (apply mul_pos; [lra | unfold qmin; destruct (Qle_bool _ _); lra]).
    assert (0 <= alone k f x' r c).
    { unfold alone, only. destruct (Nat.eqb (ny k) 0); [|lra]. pose proof (pos_nn (un f r c)). pose proof (neg_np (un f r c)). apply mul_nn. apply mul_nn; lra. rewrite (al1 k O6). change (cell k x' r c) with (x' i). lra. }
    lra.
Qed.

(** * Concrete cases *)
Lemma gauss_p (k : pcfg) f : workable k -> rectangular k f -> known_ends k -> sideways_fine k f -> exact_solver (number_of_cells k) (pmatrix k f) (gauss (number_of_cells k)).
Proof. intros H1 H2 H3 H4 y _. rewrite <- cells_eq. destruct (weights_exist k f H1 H2 H3 H4) as [v Hv]. apply (gauss_solves (cells k) (pmatrix k f) v); [apply npos; assumption | exact Hv]. Qed.
Definition kp (tr : bool) (rows cols : nat) (a : Q) (n : nat) (b1 b2 : boundary) (c1 : Q) : pcfg := {| base := case_k tr rows cols a n b1 b2 c1; lateral_flux := 0 |}.
Definition run_p (k : pcfg) (f : flow) (d : input) (w x : nat -> Q) : result (option outcome) := pieter_fraction (gauss (number_of_cells k)) k f d w x.
Lemma kp_workable tr rows cols a n b1 b2 c : (rows <> 1)%nat -> (1 <= cols)%nat -> 0 <= a <= 1 -> workable (kp tr rows cols a n b1 b2 c).
Proof. intros. repeat split; cbn; try assumption; try tauto; lra. Qed.
Lemma plain_p tr rows cols a n b1 b2 c u v cu cuf m l w x : (rows <> 1)%nat -> (1 <= cols)%nat -> 0 <= a <= 1 -> (n <> 0)%nat -> known_end b1 -> known_end b2 -> 0 <= c -> b1 = Constant \/ b1 = Gradient \/ (forall r, 0 <= u r 0%nat) ->
  (forall i, 0 <= cu i /\ 0 <= cuf i /\ 0 <= m i /\ 0 <= l i) -> (forall i, 0 <= w i) -> (forall i, 0 <= x i) -> plain (kp tr rows cols a n b1 b2 c) (case_f u v) (case_d cu cuf m l) w x.
Proof.
  intros H1 H2 H3 H4 H5 H6 H7 H8 H9 H10 H11. split; [apply kp_workable; assumption|]. split; [apply case_rect|]. split; [split; [exact H5 | split; [exact H6 | reflexivity]]|]. split.
  { split; cbn; intros E r _. destruct H8 as [H8|[H8|H8]]; [congruence | congruence |]. specialize (H8 r). lra. lra. }
  split; [cbn; lra|]. split; [cbn; lra|]. split; [exact H4|]. split; [apply case_input, H9|]. split; intros i _; auto.
Qed.
Lemma plain_orderly (k : pcfg) f d w x : plain k f d w x -> sideways_fine k f -> fully_implicit k -> trunk k = true \/ no_side_wind k f -> orderly k f d w x.
Proof. intros (P1 & P2 & P3 & P4 & P5 & P6 & P7 & P8 & P9 & P10) H1 H2 H3. unfold orderly. auto 20. Qed.
Lemma plain_solver (k : pcfg) f d w x : plain k f d w x -> sideways_fine k f -> exact_solver (number_of_cells k) (pmatrix k f) (gauss (number_of_cells k)).
Proof. intros (P1 & P2 & P3 & _) H. apply gauss_p; assumption. Qed.
Lemma even_fine (k : pcfg) u v : sideways_fine k (case_f u (even v)).
Proof. left. intros r c _ _. reflexivity. Qed.
Lemma unbalanced_p (k : pcfg) f d w x r c : exact_solver (number_of_cells k) (pmatrix k f) (gauss (number_of_cells k)) -> within k r c -> free_column k c ->
  match run_p k f d w x with Ok (Some o) => converged o && Qltb (max_error k * area f r c) (qabs (astray k f d o r c)) | _ => false end = true -> unbalanced (gauss (number_of_cells k)) k f d w x.
Proof.
  intros H1 H2 H3 H4. split. exact H1. unfold run_p in H4. destruct (pieter_fraction _ _ _ _ _ _) as [[o|]|]; try discriminate. apply andb_prop in H4. destruct H4 as [H4 H5].
  exists o, r, c. repeat split; try assumption; try apply H2; try apply H3. destruct (Qltb_spec (max_error k * area f r c) (qabs (astray k f d o r c))); [assumption | discriminate].
Qed.
Ltac plainly := apply plain_p; [discriminate | lia | lra | discriminate | unfold known_end; tauto | unfold known_end; tauto | lra | try tauto; try (right; right; intros; cbn; lra) | intros i; unfold ones, zeros, tens; repeat split; lra | intros i; unfold ones, zeros; lra | intros i; unfold ones, zeros; lra].
Ltac freely := split; intros [? ?]; discriminate.

(** Three rows of four cells: sand comes in offshore, the last column is open, the wind grows landwards and has a component along the coast.
    In the first the bed lacks sand in places. *)
Definition kA : pcfg := kp true 2 3 1 12 Flux Gradient 0.
Definition fA : flow := case_f (column [1; 3 # 2; 2; 2]) (even (-(1))).
Definition dA : input := case_d (fun _ => 2) (fun _ => 2) (fun i => if Nat.eqb (Nat.modulo i 3) 1 then 0 else 3) ones.
Definition dB : input := case_d (fun _ => 2) (fun _ => 2) (fun _ => 3) ones.
Lemma caseA : orderly kA fA dA ones ones /\ exact_solver (number_of_cells kA) (pmatrix kA fA) (gauss (number_of_cells kA)) /\ match run_p kA fA dA ones ones with
  | Ok (Some o) => converged o = true /\ map (fun q => Qred (ct o q)) [0; 3; 7]%nat = [35250372 # 23512801; 237 # 169; 204 # 169] /\ map (fun q => Qred (pickup o q)) [3; 4; 7]%nat = [101 # 169; -1681980 # 23512801; -9 # 169]
  | _ => False end.
Proof.
  assert (P : plain kA fA dA ones ones).
  { apply plain_p; [discriminate | lia | lra | discriminate | unfold known_end; tauto | unfold known_end; tauto | lra | right; right; intros; vm_compute; discriminate | | intros i; unfold ones; lra | intros i; unfold ones; lra].
    intros i. unfold ones. destruct (Nat.eqb _ _); repeat split; lra. }
  split; [apply plain_orderly; [exact P | apply even_fine | intros _; reflexivity | left; reflexivity]|]. split; [eapply plain_solver; [exact P | apply even_fine]|]. vm_compute. repeat split.
Qed.
Lemma caseB : orderly kA fA dB ones ones /\ exact_solver (number_of_cells kA) (pmatrix kA fA) (gauss (number_of_cells kA)) /\ ample kA dB ones /\ no_side_wind_in_1d kA fA /\ match run_p kA fA dB ones ones with
  | Ok (Some o) => map (fun q => Qred (pickup o q)) [0; 1; 2; 3]%nat = [6 # 13; 134 # 195; 527 # 780; 1 # 2] /\ all_astray kA fA dB o == 0 /\
    over_rows kA (fun r => onwards kA fA (as_grid kA (ct o)) r 2%nat - onwards kA fA (as_grid kA (ct o)) r 0%nat) == 283 # 130
  | _ => False end.
Proof.
  assert (P : plain kA fA dB ones ones).
  { apply plain_p; [discriminate | lia | lra | discriminate | unfold known_end; tauto | unfold known_end; tauto | lra | right; right; intros; vm_compute; discriminate | | intros i; unfold ones; lra | intros i; unfold ones; lra].
    intros i. unfold ones. repeat split; lra. }
  split; [apply plain_orderly; [exact P | apply even_fine | intros _; reflexivity | left; reflexivity]|]. split; [eapply plain_solver; [exact P | apply even_fine]|].
  split; [intros i _; cbn; unfold ones; lra|]. split; [discriminate|]. vm_compute. repeat split.
Qed.
(** The wind does not change, all that the air can carry is 2. *)
Definition fE : flow := case_f (even 1) (even (-(1))).
Lemma case_bounded : orderly kA fE dB ones ones /\ exact_solver (number_of_cells kA) (pmatrix kA fE) (gauss (number_of_cells kA)) /\ uniform_wind kA fE 1 (-(1)) /\ open_ends kA 1 (-(1)) /\ pbounded kA dB ones ones 2 /\
  match run_p kA fE dB ones ones with Ok (Some o) => map (fun q => Qred (ct o q)) [0; 1; 2; 3]%nat = [5 # 3; 14 # 9; 41 # 27; 3 # 2] | _ => False end.
Proof.
  assert (P : plain kA fE dB ones ones).
  { apply plain_p; [discriminate | lia | lra | discriminate | unfold known_end; tauto | unfold known_end; tauto | lra | right; right; intros; vm_compute; discriminate | | intros i; unfold ones; lra | intros i; unfold ones; lra].
    intros i. unfold ones. repeat split; lra. }
  split; [apply plain_orderly; [exact P | apply even_fine | intros _; reflexivity | left; reflexivity]|]. split; [eapply plain_solver; [exact P | apply even_fine]|].
  split; [apply case_even|]. split; [split; [discriminate | split; [intros _; lra | intros [E|E]; discriminate E]]|].
  split; [split; [intros i _; cbn; unfold ones; repeat split; lra | split; [intros _ r _; cbn; lra | discriminate]]|]. vm_compute. reflexivity.
Qed.

Definition still_air : flow := case_f (even 0) (even 0).
Definition oblique_air : flow := case_f (even 1) (even 1).
(** Nothing in the air, no wind, less sand than the air could carry, but more than what it takes up in the step. *)
Definition kF : pcfg := kp true 0 2 1 12 Gradient Gradient 0.
Lemma p_short : exists sp k f d w x, orderly k f d w x /\ no_side_wind k f /\ unbalanced sp k f d w x.
Proof.
  exists (gauss 3), kF, still_air, (case_d (fun _ => 3 # 2) ones ones zeros), ones, zeros.
  assert (P : plain kF still_air (case_d (fun _ => 3 # 2) ones ones zeros) ones zeros) by plainly.
  split; [apply plain_orderly; [exact P | apply even_fine | intros _; reflexivity | left; reflexivity]|]. split; [intros r c _; reflexivity|].
  apply (unbalanced_p kF still_air _ _ _ 0 1); [eapply plain_solver; [exact P | apply even_fine] | split; cbn; lia | freely | vm_compute; reflexivity].
Qed.
Lemma p_half : exists sp k f d w x, plain k f d w x /\ trunk k = true /\ alpha k == 1 # 2 /\ ample k d w /\ no_side_wind k f /\ unbalanced sp k f d w x.
Proof.
  exists (gauss 3), (kp true 0 2 (1 # 2) 12 Gradient Gradient 0), still_air, (case_d ones ones tens zeros), ones, zeros. split; [plainly|]. split; [reflexivity|]. split; [reflexivity|].
  split; [intros i _; cbn; unfold ones, tens; lra|]. split; [intros r c _; reflexivity|].
  apply (unbalanced_p (kp true 0 2 (1 # 2) 12 Gradient Gradient 0) still_air _ _ _ 0 1); [eapply (plain_solver _ _ (case_d ones ones tens zeros) ones zeros); [plainly | apply even_fine] | split; cbn; lia | freely | vm_compute; reflexivity].
Qed.
Lemma p_one_row : exists sp k f d w x u v, orderly k f d w x /\ trunk k = true /\ ny k = 0%nat /\ ample k d w /\ uniform_wind k f u v /\ unbalanced sp k f d w x.
Proof.
  exists (gauss 3), kF, oblique_air, (case_d ones ones tens zeros), ones, zeros, 1, 1. assert (P : plain kF oblique_air (case_d ones ones tens zeros) ones zeros) by plainly.
  split; [apply plain_orderly; [exact P | apply even_fine | intros _; reflexivity | left; reflexivity]|]. split; [reflexivity|]. split; [reflexivity|]. split; [intros i _; cbn; unfold ones, tens; lra|]. split; [apply case_even|].
  apply (unbalanced_p kF oblique_air _ _ _ 0 1); [eapply plain_solver; [exact P | apply even_fine] | split; cbn; lia | freely | vm_compute; reflexivity].
Qed.
(** Three rows, connected. *)
Definition kR (tr : bool) : pcfg := kp tr 2 2 1 12 Gradient Gradient 0.
Lemma p_steady_side : exists sp k f d w x u v, plain k f d w x /\ trunk k = false /\ ny k = 2%nat /\ ample k d w /\ uniform_wind k f u v /\ unbalanced sp k f d w x.
Proof.
  exists (gauss 9), (kR false), oblique_air, (case_d ones ones tens ones), ones, ones, 1, 1. assert (P : plain (kR false) oblique_air (case_d ones ones tens ones) ones ones) by plainly.
  split; [exact P|]. split; [reflexivity|]. split; [reflexivity|]. split; [intros i _; cbn; unfold ones, tens; lra|]. split; [apply case_even|].
  apply (unbalanced_p (kR false) oblique_air _ _ _ 2 1); [eapply plain_solver; [exact P | apply even_fine] | split; cbn; lia | freely | vm_compute; reflexivity].
Qed.
Definition uneven_air : flow := case_f (even 1) (fun r _ => match r with 0%nat => -(1) | 1%nat => -(1) | _ => -(2) end).
Lemma p_uneven : exists sp k f d w x, plain k f d w x /\ trunk k = true /\ fully_implicit k /\ ny k = 2%nat /\ ample k d w /\ unbalanced sp k f d w x.
Proof.
  exists (gauss 9), (kR true), uneven_air, (case_d ones ones tens ones), ones, ones. assert (P : plain (kR true) uneven_air (case_d ones ones tens ones) ones ones) by plainly.
  split; [exact P|]. split; [reflexivity|]. split; [intros _; reflexivity|]. split; [reflexivity|]. split; [intros i _; cbn; unfold ones, tens; lra|].
  apply (unbalanced_p (kR true) uneven_air _ _ _ 0 1); [ | split; cbn; lia | freely | vm_compute; reflexivity].
  intros y _. change (number_of_cells (kR true)) with (cells (kR true)). apply (gauss_solves (cells (kR true)) (pmatrix (kR true) uneven_air) ones).
  - destruct P as (P1 & P2 & P3 & _). apply npos; assumption.
  - split; [intros i _; reflexivity|]. intros j Hj. change (cells (kR true)) with 9%nat in *. do 9 (destruct j as [|j]; [vm_compute; reflexivity|]). lia.
Qed.

(** Saturated: three rows and oblique wind; one row, steady. *)
Lemma case_settled : workable kA /\ rectangular kA fE /\ known_ends kA /\ uniform_wind kA fE 1 (-(1)) /\ exact_solver (number_of_cells kA) (pmatrix kA fE) (gauss (number_of_cells kA)) /\
  psaturated kA (case_d (fun _ => 2) (fun _ => 2) ones (fun _ => 2)) ones (fun _ => 2) 2 /\ open_ends kA 1 (-(1)) /\
  shown kA (run_p kA fE (case_d (fun _ => 2) (fun _ => 2) ones (fun _ => 2)) ones (fun _ => 2)) = Some (repeat 2 12, repeat 0 12, true).
Proof.
  assert (W : workable kA) by (apply kp_workable; [discriminate | lia | lra]). assert (K : known_ends kA) by (repeat split; unfold known_end; cbn; tauto).
  split; [exact W|]. split; [apply case_rect|]. split; [exact K|]. split; [apply case_even|]. split; [apply gauss_p; [exact W | apply case_rect | exact K | apply even_fine]|].
  split; [split; [intros i _; cbn; unfold ones; repeat split; lra | split; [intros _ r _; cbn; lra | discriminate]]|]. split; [split; [discriminate | split; [intros _; lra | intros [E|E]; discriminate E]]|]. vm_compute. reflexivity.
Qed.
(** A closed landward end, however much comes in there. *)
Definition kX : pcfg := {| base := {| trunk := true; ny := 0; nx := 2; dt := 1; T := 1; alpha := 1; max_error := 1 # 1000; max_iter := 12; offshore := Flux; onshore := Flux; lateral := Circular;
  offshore_flux := 1; onshore_flux := 1; constant_offshore_flux := 0; constant_onshore_flux := 0 |}; lateral_flux := 0 |}.
Lemma p_closed : exists sp k f d w x u C, orderly k f d w x /\ exact_solver (number_of_cells k) (pmatrix k f) sp /\ uniform_wind k f u 0 /\ 0 < u /\ psaturated k d w x C /\ onshore k = Flux /\
  (forall r, (r <= ny k)%nat -> onshore_flux k * at_cell k (Cu0 d) r (nx k) == C) /\ exists o, pieter_fraction sp k f d w x = Ok (Some o) /\ at_cell k (ct o) 0 (nx k) == 2 * C /\ 0 < C.
Proof.
  exists (gauss 3), kX, (case_f (even 1) (even 0)), (case_d ones ones tens ones), ones, ones, 1, 1.
  assert (W : workable kX) by (repeat split; cbn; try lia; lra). assert (K : known_ends kX) by (repeat split; unfold known_end; cbn; tauto).
  split. { split; [exact W|]. split; [apply case_rect|]. split; [exact K|]. split; [apply even_fine|]. split; [split; intros _ r _; cbn; unfold even; lra|]. split; [intros _; reflexivity|]. split; [left; reflexivity|].
    split; [cbn; lra|]. split; [cbn; lra|]. split; [discriminate|]. split; [apply case_input; intros; unfold ones, tens; repeat split; lra|]. split; intros i _; unfold ones; lra. }
  split; [apply (gauss_p kX); [exact W | apply case_rect | exact K | apply even_fine]|]. split; [apply case_even|]. split; [lra|].
  split; [split; [intros i _; cbn; unfold ones, tens; repeat split; lra | split; [intros _ r _; reflexivity | discriminate]]|].
  split; [reflexivity|]. split; [intros r _; reflexivity|]. eexists. split; [vm_compute; reflexivity|]. split; [vm_compute; reflexivity | lra].
Qed.
Lemma p_steady_unsaturated : exists sp k f d w x u v C, plain k f d w x /\ trunk k = false /\ ny k = 2%nat /\ exact_solver (number_of_cells k) (pmatrix k f) sp /\ uniform_wind k f u v /\ psaturated k d w x C /\ open_ends k u v /\
  exists o i, pieter_fraction sp k f d w x = Ok (Some o) /\ (i < number_of_cells k)%nat /\ ~ ct o i == C.
Proof.
  exists (gauss 9), (kR false), oblique_air, (case_d ones ones tens ones), ones, ones, 1, 1, 1. assert (P : plain (kR false) oblique_air (case_d ones ones tens ones) ones ones) by plainly.
  split; [exact P|]. split; [reflexivity|]. split; [reflexivity|]. split; [eapply (plain_solver (kR false)); [exact P | apply even_fine]|]. split; [apply case_even|].
  split; [split; [intros i _; cbn; unfold ones, tens; repeat split; lra | split; [discriminate | intros _; split; discriminate]]|]. split; [split; [discriminate | split; [discriminate | intros [E|E]; discriminate E]]|].
  eexists _, 0%nat. split; [vm_compute; reflexivity|]. split; [cbn; lia|]. vm_compute. discriminate.
Qed.
Definition kS : pcfg := kp false 0 2 1 12 Gradient Gradient 0.
Lemma case_grows : oblique kS oblique_air (case_d ones ones tens zeros) ones (fun _ => 3) 1 1 1 1 3 /\ exact_solver (number_of_cells kS) (pmatrix kS oblique_air) (gauss (number_of_cells kS)) /\
  shown kS (run_p kS oblique_air (case_d ones ones tens zeros) ones (fun _ => 3)) = Some ([7 # 2; 7 # 2; 7 # 2], [-5 # 2; -5 # 2; -5 # 2], true).
Proof.
  assert (W : workable kS) by (apply kp_workable; [discriminate | lia | lra]). assert (K : known_ends kS) by (repeat split; unfold known_end; cbn; tauto).
  split. { split; [exact W|]. split; [apply case_rect|]. split; [exact K|]. split; [reflexivity|]. split; [reflexivity|]. split; [reflexivity|]. split; [reflexivity|]. split; [discriminate|]. split; [cbn; lra|].
    split; [apply case_even|]. split; [intros j _; reflexivity|]. split; [cbn; lra|]. split; [lra|]. intros i _. cbn. unfold ones, tens. repeat split; lra. }
  split; [apply gauss_p; [exact W | apply case_rect | exact K | apply even_fine]|]. vm_compute. reflexivity.
Qed.
(** Prescribed ends. *)
Definition kC (tr : bool) : pcfg := kp tr 0 2 1 12 Constant Gradient 5.
Definition onshore_air : flow := case_f (even 1) (even 0).
Definition dC : input := case_d ones ones tens zeros.
Lemma orderly_C tr x : (forall i, 0 <= x i) -> orderly (kC tr) onshore_air dC ones x /\ exact_solver (number_of_cells (kC tr)) (pmatrix (kC tr) onshore_air) (gauss (number_of_cells (kC tr))) /\ no_side_wind (kC tr) onshore_air.
Proof.
  intros Hx. assert (P : plain (kC tr) onshore_air dC ones x).
  { apply plain_p; [discriminate | lia | lra | discriminate | unfold known_end; tauto | unfold known_end; tauto | lra | tauto | intros i; unfold ones, zeros, tens; repeat split; lra | intros i; unfold ones; lra | exact Hx]. }
  split; [apply plain_orderly; [exact P | apply even_fine | intros _; reflexivity | right; intros r c _; reflexivity]|]. split; [eapply plain_solver; [exact P | apply even_fine]|]. intros r c _. reflexivity.
Qed.
Lemma case_kept : orderly (kC true) onshore_air dC ones ones /\ exact_solver (number_of_cells (kC true)) (pmatrix (kC true) onshore_air) (gauss (number_of_cells (kC true))) /\ no_side_wind (kC true) onshore_air /\
  offshore (kC true) = Constant /\ constant_offshore_flux (kC true) = 5 /\ shown (kC true) (run_p (kC true) onshore_air dC ones ones) = Some ([1; 2 # 3; 1 # 2], [0; 1 # 3; 1 # 2], true).
Proof. destruct (orderly_C true ones) as (H1 & H2 & H3). intros; unfold ones; lra. split; [exact H1|]. split; [exact H2|]. split; [exact H3|]. vm_compute. repeat split. Qed.
Lemma case_added : orderly (kC false) onshore_air dC ones ones /\ exact_solver (number_of_cells (kC false)) (pmatrix (kC false) onshore_air) (gauss (number_of_cells (kC false))) /\ no_side_wind (kC false) onshore_air /\
  offshore (kC false) = Constant /\ constant_offshore_flux (kC false) = 5 /\ shown (kC false) (run_p (kC false) onshore_air dC ones ones) = Some ([6; 7 # 2; 1], [-5; -5 # 2; 0], true).
Proof. destruct (orderly_C false ones) as (H1 & H2 & H3). intros; unfold ones; lra. split; [exact H1|]. split; [exact H2|]. split; [exact H3|]. vm_compute. repeat split. Qed.
Lemma p_nothing_enters : exists sp k f d w x, orderly k f d w x /\ exact_solver (number_of_cells k) (pmatrix k f) sp /\ no_side_wind k f /\ trunk k = true /\ offshore k = Constant /\ us f 0%nat 0%nat == 1 /\ constant_offshore_flux k == 5 /\
  exists o, pieter_fraction sp k f d w x = Ok (Some o) /\ at_cell k (ct o) 0 0 == 0.
Proof.
  exists (gauss 3), (kC true), onshore_air, dC, ones, zeros. destruct (orderly_C true zeros) as (H1 & H2 & H3). intros; unfold zeros; lra. split; [exact H1|]. split; [exact H2|]. split; [exact H3|].
  split; [reflexivity|]. split; [reflexivity|]. split; [reflexivity|]. split; [reflexivity|]. eexists. split; vm_compute; reflexivity.
Qed.
(** Connected rows with different concentrations at the prescribed end. *)
Definition rows_differ : nat -> Q := fun i => match i with 3%nat => 2 | 6%nat => 3 | _ => 1 end.
Lemma p_drifts : exists sp k f d w x u v, orderly k f d w x /\ exact_solver (number_of_cells k) (pmatrix k f) sp /\ uniform_wind k f u v /\ trunk k = true /\ offshore k = Constant /\
  exists o, pieter_fraction sp k f d w x = Ok (Some o) /\ at_cell k x 0 0 == 1 /\ at_cell k (ct o) 0 0 == 5 # 2.
Proof.
  exists (gauss 9), (kp true 2 2 1 12 Constant Gradient 0), oblique_air, (case_d ones ones tens rows_differ), ones, rows_differ, 1, 1.
  assert (RD : forall i, 0 <= rows_differ i) by (intros i; unfold rows_differ; do 7 (destruct i as [|i]; [lra|]); lra).
  assert (P : plain (kp true 2 2 1 12 Constant Gradient 0) oblique_air (case_d ones ones tens rows_differ) ones rows_differ).
  { apply plain_p; [discriminate | lia | lra | discriminate | unfold known_end; tauto | unfold known_end; tauto | lra | tauto | intros i; specialize (RD i); unfold ones, tens; repeat split; lra | intros i; unfold ones; lra | exact RD]. }
  split; [apply plain_orderly; [exact P | apply even_fine | intros _; reflexivity | left; reflexivity]|]. split; [eapply (plain_solver (kp true 2 2 1 12 Constant Gradient 0)); [exact P | apply even_fine]|]. split; [apply case_even|].
  split; [reflexivity|]. split; [reflexivity|]. eexists. split; [vm_compute; reflexivity|]. split; vm_compute; reflexivity.
Qed.
(** Supply. *)
Lemma p_overdrawn : exists sp k f d w x, orderly k f d w x /\ exact_solver (number_of_cells k) (pmatrix k f) sp /\ no_side_wind k f /\
  exists o i, pieter_fraction sp k f d w x = Ok (Some o) /\ converged o = true /\ (i < number_of_cells k)%nat /\ mass d i < pickup o i.
Proof.
  exists (gauss 3), kF, still_air, (case_d (fun _ => 3001 # 2000) ones ones zeros), ones, zeros. assert (P : plain kF still_air (case_d (fun _ => 3001 # 2000) ones ones zeros) ones zeros) by plainly.
  split; [apply plain_orderly; [exact P | apply even_fine | intros _; reflexivity | left; reflexivity]|]. split; [eapply (plain_solver kF); [exact P | apply even_fine]|]. split; [intros r c _; reflexivity|].
  eexists _, 0%nat. split; [vm_compute; reflexivity|]. split; [reflexivity|]. split; [cbn; lia|]. vm_compute. reflexivity.
Qed.
(** The first step. *)
Lemma p_first : exists sp k f d w x, orderly k f d w x /\ exact_solver (number_of_cells k) (pmatrix k f) sp /\ (forall i, (i < number_of_cells k)%nat -> 0 < w i * Cu d i /\ 0 < mass d i) /\
  solve_pieter sp k true [1] (fun _ => [0]) [(f, d, x)] = Ok (Weights (fun _ => [1])) /\
  exists o w', solve_pieter sp k false [1] (fun _ => [1]) [(f, d, x)] = Ok (All [o] w') /\ forall i, (i < number_of_cells k)%nat -> 0 < ct o i /\ 0 < pickup o i.
Proof.
  exists (gauss 3), kF, onshore_air, (case_d ones ones tens zeros), ones, zeros. assert (P : plain kF onshore_air (case_d ones ones tens zeros) ones zeros) by plainly.
  split; [apply plain_orderly; [exact P | apply even_fine | intros _; reflexivity | left; reflexivity]|]. split; [eapply (plain_solver kF); [exact P | apply even_fine]|].
  split; [intros i _; cbn; unfold ones, tens; split; lra|]. split; [reflexivity|]. eexists _, _. split; [vm_compute; reflexivity|]. intros i Hi. change (number_of_cells kF) with 3%nat in Hi.
  do 3 (destruct i as [|i]; [split; vm_compute; reflexivity|]). lia.
Qed.
Lemma case_moving : within kA 1 1 /\ free_column kA 1 /\ 0 < at_cell kA ones 1 1 * at_cell kA (Cu dB) 1 1 /\ 0 < at_cell kA (mass dB) 1 1.
Proof. split; [split; cbn; lia|]. split; [freely|]. split; vm_compute; reflexivity. Qed.
(** One round of the Crank-Nicolson scheme; one row and oblique wind. *)
Lemma case_cell : let k := kp true 2 3 (1 # 2) 1 Flux Gradient 0 in workable k /\ rectangular k fA /\ known_ends k /\ sideways_fine k fA /\ exact_solver (number_of_cells k) (pmatrix k fA) (gauss (number_of_cells k)) /\
  trunk k = true /\ no_side_wind_in_1d k fA /\ within k 1 0 /\ free_column k 0 /\ Qred (at_cell k (improve (gauss (number_of_cells k)) k fA dB ones zeros) 1 0) = 31 # 17.
Proof.
  cbv zeta. assert (W : workable (kp true 2 3 (1 # 2) 1 Flux Gradient 0)) by (apply kp_workable; [discriminate | lia | lra]). assert (K : known_ends (kp true 2 3 (1 # 2) 1 Flux Gradient 0)) by (repeat split; unfold known_end; cbn; tauto).
  split; [exact W|]. split; [apply case_rect|]. split; [exact K|]. split; [apply even_fine|]. split; [apply gauss_p; [exact W | apply case_rect | exact K | apply even_fine]|]. split; [reflexivity|]. split; [discriminate|]. split; [split; cbn; lia|]. split; [freely|]. vm_compute. reflexivity.
Qed.
Lemma case_oblique : workable kF /\ rectangular kF oblique_air /\ known_ends kF /\ sideways_fine kF oblique_air /\ exact_solver (number_of_cells kF) (pmatrix kF oblique_air) (gauss (number_of_cells kF)) /\ trunk kF = true /\ ny kF = 0%nat /\
  within kF 0 1 /\ free_column kF 1 /\ Qred (at_cell kF (improve (gauss (number_of_cells kF)) kF oblique_air dC ones zeros) 0 1) = 1 # 3.
Proof.
  assert (W : workable kF) by (apply kp_workable; [discriminate | lia | lra]). assert (K : known_ends kF) by (repeat split; unfold known_end; cbn; tauto).
  split; [exact W|]. split; [apply case_rect|]. split; [exact K|]. split; [apply even_fine|]. split; [apply gauss_p; [exact W | apply case_rect | exact K | apply even_fine]|]. split; [reflexivity|]. split; [reflexivity|]. split; [split; cbn; lia|]. split; [freely|]. vm_compute. reflexivity.
Qed.
(** The bed is short of sand: the weight is reduced. *)
Definition dS : input := case_d (fun _ => 3) ones (fun i => if Nat.eqb i 1 then 1 # 5 else 1 # 2) zeros.
Lemma case_supply : orderly kF onshore_air dS ones zeros /\ exact_solver (number_of_cells kF) (pmatrix kF onshore_air) (gauss (number_of_cells kF)) /\ shown kF (run_p kF onshore_air dS ones zeros) = Some ([3 # 8; 29 # 120; 3 # 8], [3 # 8; 13 # 120; 3 # 8], true).
Proof.
  assert (P : plain kF onshore_air dS ones zeros).
  { apply plain_p; [discriminate | lia | lra | discriminate | unfold known_end; tauto | unfold known_end; tauto | lra | tauto | | intros i; unfold ones; lra | intros i; unfold zeros; lra].
    intros i. unfold ones, zeros. destruct (Nat.eqb _ _); repeat split; lra. }
  split; [apply plain_orderly; [exact P | apply even_fine | intros _; reflexivity | left; reflexivity]|]. split; [eapply (plain_solver kF); [exact P | apply even_fine]|]. vm_compute. reflexivity.
Qed.
