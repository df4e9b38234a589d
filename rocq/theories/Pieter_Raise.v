(** Which set-ups the solvers 'pieter' and 'steadystatepieter' accept. *)
From Coq Require Import QArith Lia List Bool Arith.
From Verif Require Import Base Num Utils_Model Solver_Model Solver_Spec Pieter_Model Pieter_Spec Pieter_Cases.
Import ListNotations.
Open Scope Q_scope.

Lemma p_accepted (k : pcfg) : known_end (offshore k) -> known_end (onshore k) -> known_side (lateral k) -> enough_cells k -> max_iter k <> 0%nat -> pcheck k = Ok tt.
Proof.
  intros K1 K2 K3 (Hy & Hx & Hg) Hm. unfold pcheck.
  assert (C : forall b, known_end b -> match b with Flux | Constant | Gradient => Ok tt | Circular => Raise NotImplementedError | _ => Raise ValueError end = Ok tt) by (intros b [-> | [-> | ->]]; reflexivity).
  rewrite (C _ K1). cbn [bind]. rewrite (C _ K2). cbn [bind].
  assert (D : match lateral k with Flux | Constant | Gradient | Circular => Ok tt | _ => Raise ValueError end = Ok tt) by (destruct K3 as [-> | [-> | [-> | ->]]]; reflexivity). rewrite D. cbn [bind].
  unfold pdistinct. destruct (Nat.eqb_spec (ny k) 1); [lia|]. destruct (Nat.leb_spec 1 (nx k)); [|lia]. rewrite orb_true_r. cbn [negb].
  destruct (Nat.eqb_spec (max_iter k) 0); [contradiction|]. destruct (Nat.eqb_spec (nx k) 0); [lia|]. rewrite andb_false_r. cbn [orb].
  destruct (Nat.eqb_spec (ny k) 0) as [E|E]; [|rewrite andb_false_r; reflexivity]. destruct (beq (lateral k) Gradient) eqn:B; [|reflexivity].
  exfalso. apply (Hg E). destruct (lateral k); cbn in B; try discriminate. reflexivity.
Qed.
Lemma p_runs : forall sp (k : pcfg) t0 dist init fs, known_end (offshore k) -> known_end (onshore k) -> known_side (lateral k) -> enough_cells k -> max_iter k <> 0%nat ->
  exists c, solve_pieter sp k t0 dist init fs = Ok c.
Proof.
  intros sp k t0 dist init fs K1 K2 K3 E Hm. pose proof (p_accepted k K1 K2 K3 E Hm) as P. unfold solve_pieter. destruct t0; [eexists; reflexivity|].
  assert (Q : forall i w, exists o, pfractions sp k i fs w = Ok o).
  { induction fs as [|[[f d] x] fs IH]; intros i w; cbn [pfractions]; [eexists; reflexivity|]. unfold pieter_fraction. rewrite P. cbn [bind].
    destruct (piterate _ _ _ _ _ _ _) as [o|]; [|eexists; reflexivity]. destruct (IH (S i) (fun c => set_nth i (weight o c) (renormalize_weights (w c) i))) as [o' ->]. eexists. reflexivity. }
  destruct (Q 0%nat init) as [o ->]. eexists. reflexivity.
Qed.
Lemma p_first_check sp (k : pcfg) dist init f d x fs e : pcheck k = Raise e -> solve_pieter sp k false dist init ((f, d, x) :: fs) = Raise e.
Proof. intros E. unfold solve_pieter. cbn [pfractions]. unfold pieter_fraction. rewrite E. reflexivity. Qed.
Lemma p_two_rows : forall sp (k : pcfg) dist init f d x fs, known_end (offshore k) -> known_end (onshore k) -> known_side (lateral k) -> ny k = 1%nat ->
  solve_pieter sp k false dist init ((f, d, x) :: fs) = Raise ValueError.
Proof.
  intros sp k dist init f d x fs K1 K2 K3 Y. apply p_first_check. unfold pcheck. unfold pdistinct. rewrite Y.
  destruct K1 as [-> | [-> | ->]]; destruct K2 as [-> | [-> | ->]]; destruct K3 as [-> | [-> | [-> | ->]]]; reflexivity.
Qed.
Lemma p_uniform_end : forall sp (k : pcfg) dist init f d x fs, offshore k = Uniform \/ known_end (offshore k) /\ onshore k = Uniform ->
  solve_pieter sp k false dist init ((f, d, x) :: fs) = Raise ValueError.
Proof.
  intros sp k dist init f d x fs H. apply p_first_check. unfold pcheck. destruct H as [-> | [K ->]]; [reflexivity|]. destruct K as [-> | [-> | ->]]; reflexivity.
Qed.
Lemma p_circular_end : forall sp (k : pcfg) dist init f d x fs, offshore k = Circular \/ known_end (offshore k) /\ onshore k = Circular ->
  solve_pieter sp k false dist init ((f, d, x) :: fs) = Raise NotImplementedError.
Proof.
  intros sp k dist init f d x fs H. apply p_first_check. unfold pcheck. destruct H as [-> | [K ->]]; [reflexivity|]. destruct K as [-> | [-> | ->]]; reflexivity.
Qed.
Lemma p_no_rounds : forall sp (k : pcfg) dist init f d x fs, known_end (offshore k) -> known_end (onshore k) -> known_side (lateral k) -> enough_cells k -> max_iter k = 0%nat ->
  solve_pieter sp k false dist init ((f, d, x) :: fs) = Raise NameError.
Proof.
  intros sp k dist init f d x fs K1 K2 K3 (Hy & Hx & _) M. apply p_first_check. unfold pcheck.
  assert (C : forall b, known_end b -> match b with Flux | Constant | Gradient => Ok tt | Circular => Raise NotImplementedError | _ => Raise ValueError end = Ok tt) by (intros b [-> | [-> | ->]]; reflexivity).
  rewrite (C _ K1). cbn [bind]. rewrite (C _ K2). cbn [bind].
  assert (D : match lateral k with Flux | Constant | Gradient | Circular => Ok tt | _ => Raise ValueError end = Ok tt) by (destruct K3 as [-> | [-> | [-> | ->]]]; reflexivity). rewrite D. cbn [bind].
  unfold pdistinct. destruct (Nat.eqb_spec (ny k) 1); [lia|]. destruct (Nat.leb_spec 1 (nx k)); [|lia]. rewrite orb_true_r. cbn [negb]. rewrite M. reflexivity.
Qed.
(** The set-ups of the cases: 'constant' offshore and 'gradient' onshore with connected borders, as in the default configuration. *)
Lemma case_runs : let k := kp true 2 3 1 10 Constant Gradient 0 in known_end (offshore k) /\ known_end (onshore k) /\ known_side (lateral k) /\ enough_cells k /\ max_iter k <> 0%nat.
Proof. cbv zeta. unfold known_end, known_side, enough_cells. cbn. repeat split; try tauto; try discriminate. Qed.
Lemma case_two_rows : let k := kp true 1 3 1 10 Constant Gradient 0 in known_end (offshore k) /\ known_end (onshore k) /\ known_side (lateral k) /\ ny k = 1%nat.
Proof. cbv zeta. unfold known_end, known_side. cbn. repeat split; tauto. Qed.
Lemma case_uniform_end : let k := kp true 2 3 1 10 Constant Uniform 0 in known_end (offshore k) /\ onshore k = Uniform.
Proof. cbv zeta. unfold known_end. cbn. tauto. Qed.
Lemma case_circular_end : let k := kp false 0 3 1 10 Circular Gradient 0 in offshore k = Circular.
Proof. reflexivity. Qed.
Lemma case_no_rounds : let k := kp true 2 3 1 0 Constant Gradient 0 in known_end (offshore k) /\ known_end (onshore k) /\ known_side (lateral k) /\ enough_cells k /\ max_iter k = 0%nat.
Proof. cbv zeta. unfold known_end, known_side, enough_cells. cbn. repeat split; try tauto; try discriminate. Qed.
