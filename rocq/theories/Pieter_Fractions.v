(** All fractions of the solvers 'pieter' and 'steadystatepieter'. *)
From Coq Require Import QArith Lia List Bool Arith.
From Verif Require Import Base Num Utils_Model Utils_Spec Utils_Proofs Run_Proofs Solver_Model Solver_Spec Linear Solver_Cases Pieter_Model Pieter_Spec Pieter_Cases.
Import ListNotations.
Open Scope Q_scope.

Lemma pfractions_ok sp (k : pcfg) nf : forall fs i w, (i + length fs <= nf)%nat -> weights_ok nf k i w ->
  (forall f d x, In (f, d, x) fs -> orderly k f d (fun _ => 0) x /\ exact_solver (number_of_cells k) (pmatrix k f) sp) ->
  exists os w', pfractions sp k i fs w = Ok (Some (os, w')) /\ length os = length fs /\ weights_ok nf k (i + length fs) w' /\
    forall o j, In o os -> (j < number_of_cells k)%nat -> 0 <= ct o j /\ 0 <= weight o j <= 1.
Proof.
  induction fs as [|[[f d] x] fs IH]; intros i w Hn Hw Hg; cbn [pfractions].
  - exists [], w. cbn [length]. rewrite Nat.add_0_r. repeat split; try contradiction; apply Hw; assumption.
  - cbn [length] in *. pose proof (start_weight nf k i w ltac:(lia) Hw) as Hstart.
    destruct (Hg f d x (or_introl eq_refl)) as [Ho He].
    set (w0 := memo (cells k) (fun c => nth i (renormalize_weights (w c) i) 0)) in *.
    assert (O : orderly k f d w0 x).
    { unfold orderly in Ho |- *. repeat match goal with H : _ /\ _ |- _ => destruct H end. repeat match goal with |- _ /\ _ => split end; try assumption.
      intros j Hj. destruct (Hstart j Hj) as (R1 & R2). rewrite R1. apply R2. }
    destruct (p_nonneg sp k f d w0 x O He) as (o & E & N). rewrite E. cbn [bind].
    assert (W : weights_ok nf k (S i) (fun c => set_nth i (weight o c) (renormalize_weights (w c) i))).
    { apply weights_next; [lia | exact Hw|]. intros j Hj. destruct (N j Hj) as (_ & N2). rewrite (proj1 (Hstart j Hj)) in N2. exact N2. }
    destruct (IH (S i) _ ltac:(lia) W (fun f' d' x' H => Hg f' d' x' (or_intror H))) as (os & w' & F & L & W' & A). rewrite F. cbn [bind].
    exists (o :: os), w'. split; [reflexivity|]. split; [cbn; lia|]. split; [replace (i + S (length fs))%nat with (S i + length fs)%nat by lia; exact W'|].
    intros o' j [<- | Hi] Hj; [|apply A; assumption]. destruct (N j Hj) as (N1 & N2 & N3). destruct (Hstart j Hj) as (R1 & R2). rewrite R1 in N3. split; [exact N1|]. split; [exact N2|].
    apply (Qle_trans _ _ _ N3). apply R2.
Qed.
Lemma p_fractions : forall sp (k : pcfg) dist init fs, fs <> [] -> (forall j, (j < number_of_cells k)%nat -> length (init j) = length fs /\ Utils_Spec.all_nonneg (init j)) ->
  (forall f d x, In (f, d, x) fs -> orderly k f d (fun _ => 0) x /\ exact_solver (number_of_cells k) (pmatrix k f) sp) ->
  exists os w, solve_pieter sp k false dist init fs = Ok (All os w) /\ length os = length fs /\
    (forall o j, In o os -> (j < number_of_cells k)%nat -> 0 <= ct o j /\ 0 <= weight o j <= 1) /\
    forall j, (j < number_of_cells k)%nat -> length (w j) = length fs /\ Utils_Spec.all_nonneg (w j) /\ qsum (w j) <= 1.
Proof.
  intros sp k dist init fs Hf Hi Hg. assert (W : weights_ok (length fs) k 0 init) by (intros j Hj; destruct (Hi j Hj); repeat split; try assumption; cbn; lra).
  destruct (pfractions_ok sp k (length fs) fs 0 init ltac:(lia) W Hg) as (os & w & E & L & W' & A).
  exists os, w. unfold solve_pieter. rewrite E. split; [reflexivity|]. split; [exact L|]. split; [exact A|].
  intros j Hj. destruct (W' j Hj) as (V1 & V2 & V3). split; [exact V1|]. split; [exact V2|]. rewrite <- V1 in V3. cbn [Nat.add] in V3. rewrite firstn_all in V3. exact V3.
Qed.
(** Weights of 3 and 1, which are taken as 3/4 and 1/4. *)
Lemma case_fractions : let fs := [(fE, dB, ones); (fE, dB, ones)] in let init := fun _ : nat => [3; 1] in
  fs <> [] /\ (forall j, (j < number_of_cells kA)%nat -> length (init j) = length fs /\ Utils_Spec.all_nonneg (init j)) /\
  (forall f d x, In (f, d, x) fs -> orderly kA f d (fun _ => 0) x /\ exact_solver (number_of_cells kA) (pmatrix kA f) (gauss (number_of_cells kA))) /\
  match solve_pieter (gauss (number_of_cells kA)) kA false [] init fs with Ok (All os w) => map Qred (w 0%nat) = [3 # 4; 1 # 4] | _ => False end.
Proof.
  cbv zeta. split; [discriminate|]. split; [intros j _; split; [reflexivity | intros y [<- | [<- | []]]; lra]|]. split.
  - intros f d x [[= <- <- <-] | [[= <- <- <-] | []]]; destruct case_bounded as (O & E & _); (split; [|exact E]); unfold orderly in O |- *; repeat match goal with H : _ /\ _ |- _ => destruct H end;
    repeat match goal with |- _ /\ _ => split end; try assumption; intros j _; lra.
  - vm_compute. reflexivity.
Qed.
