(** Names of parameters and grids: membership in the tables, by computation. *)
From Coq Require Import String List Bool.
From Verif Require Import Base State_Model Names_Model Names_Spec.
Import ListNotations.
Open Scope string_scope.

Definition memb (n : string) (l : list string) : bool := existsb (String.eqb n) l.
Lemma memb_iff n l : memb n l = true <-> In n l.
Proof.
  unfold memb. rewrite existsb_exists. split.
  - intros [x [Hx E]]. apply String.eqb_eq in E. now subst.
  - intros H. exists n. split; [exact H|apply String.eqb_refl].
Qed.
Lemma memb_not n l : memb n l = false <-> ~ In n l.
Proof. rewrite <- memb_iff. destruct (memb n l); split; congruence. Qed.

Lemma names_in_iff t n : In n (names_in t) <-> exists file entries line, In (file, entries) t /\ In (line, n) entries.
Proof.
  unfold names_in. rewrite in_flat_map. split.
  - intros [[f es] [H I]]. cbn [snd] in I. apply in_map_iff in I. destruct I as [[l m] [<- I]]. now exists f, es, l.
  - intros [f [es [l [H I]]]]. exists (f, es). split; [exact H|]. cbn [snd]. apply in_map_iff. now exists (l, n).
Qed.
Lemma state_iff n : In n (flat_map (fun e => snd e) MODEL_STATE) <-> in_state n.
Proof.
  rewrite in_flat_map. split.
  - intros [[d ns] [H I]]. now exists d, ns.
  - intros [d [ns [H I]]]. now exists (d, ns).
Qed.

Definition all_in (l : list string) (P : string -> bool) : bool := forallb P l.
Lemma all_in_spec l P n : all_in l P = true -> In n l -> P n = true.
Proof. intros H. unfold all_in in H. rewrite forallb_forall in H. apply H. Qed.

Lemma check_params : all_in (names_in param_reads) (fun n =>
  memb n without_default || memb n default_config_names || memb n (names_in param_stores)) = true.
Proof. vm_compute. reflexivity. Qed.
Lemma check_without : all_in without_default (fun n =>
  memb n (names_in param_reads) && negb (memb n default_config_names) && negb (memb n (names_in param_stores))) = true.
Proof. vm_compute. reflexivity. Qed.
Lemma check_grids : all_in (names_in grid_reads) (fun n =>
  memb n (grids_at_start default_config_names) || (memb n created_later && memb n (names_in grid_stores))) = true.
Proof. vm_compute. reflexivity. Qed.
Lemma check_state : all_in (flat_map (fun e => snd e) MODEL_STATE) (fun n =>
  memb n idle || memb n (names_in grid_reads) || memb n (names_in grid_stores) || memb n solver_results) = true.
Proof. vm_compute. reflexivity. Qed.
Lemma check_idle : all_in idle (fun n => memb n (flat_map (fun e => snd e) MODEL_STATE) &&
  negb (memb n (names_in grid_reads)) && negb (memb n (names_in grid_stores)) && negb (memb n solver_results)) = true.
Proof. vm_compute. reflexivity. Qed.

Lemma c156_others n : param_read n -> ~ In n without_default -> available n.
Proof.
  intros R W. apply (names_in_iff param_reads) in R.
  assert (C := all_in_spec _ _ n check_params R). cbn beta in C.
  apply orb_prop in C. destruct C as [C|C]; [|right; now apply memb_iff].
  apply orb_prop in C. destruct C as [C|C]; [|left; now apply memb_iff].
  apply memb_iff in C. contradiction.
Qed.
Lemma c156_these n : In n without_default -> param_read n /\ ~ available n.
Proof.
  intros W. assert (C := all_in_spec _ _ n check_without W). cbn beta in C.
  apply andb_prop in C. destruct C as [C C3]. apply andb_prop in C. destruct C as [C1 C2].
  apply negb_true_iff in C2, C3. apply memb_not in C2, C3. apply memb_iff in C1.
  split; [now apply (names_in_iff param_reads)|]. intros [H|H]; contradiction.
Qed.
Lemma c156_defaults : exists n, param_read n /\ ~ available n.
Proof. exists "Cs". apply c156_these. left. reflexivity. Qed.

Lemma c157_grids n : grid_read n ->
  In n (grids_at_start default_config_names) \/ (In n created_later /\ In n (names_in grid_stores)).
Proof.
  intros R. apply (names_in_iff grid_reads) in R.
  assert (C := all_in_spec _ _ n check_grids R). cbn beta in C.
  apply orb_prop in C. destruct C as [C|C]; [left; now apply memb_iff|right].
  apply andb_prop in C. destruct C as [C1 C2]. split; now apply memb_iff.
Qed.
Lemma c157_masks n params : In n params -> (exists a, n = a ++ "_mask") -> In n (grids_at_start params).
Proof.
  intros I [a ->]. unfold grids_at_start. apply in_or_app. right. unfold masks. apply filter_In.
  split; [exact I|]. clear I. induction a as [|c a IH].
  - reflexivity.
  - cbn. cbn in IH. rewrite IH. now rewrite orb_true_r.
Qed.

Lemma c158_idle n : In n idle -> in_state n /\ ~ touched n.
Proof.
  intros I. assert (C := all_in_spec _ _ n check_idle I). cbn beta in C.
  apply andb_prop in C. destruct C as [C C4]. apply andb_prop in C. destruct C as [C C3].
  apply andb_prop in C. destruct C as [C1 C2]. apply negb_true_iff in C2, C3, C4.
  apply memb_not in C2, C3, C4. apply memb_iff in C1. split; [now apply state_iff|].
  intros [H|[H|H]]; [|contradiction|contradiction]. apply C2. now apply (names_in_iff grid_reads).
Qed.
Lemma c158_all : exists n, in_state n /\ ~ touched n.
Proof. exists "dtaus". apply c158_idle. cbn. tauto. Qed.
Lemma c158_others n : in_state n -> ~ In n idle -> touched n.
Proof.
  intros S I. apply state_iff in S. assert (C := all_in_spec _ _ n check_state S). cbn beta in C.
  apply orb_prop in C. destruct C as [C|C]; [|right; right; now apply memb_iff].
  apply orb_prop in C. destruct C as [C|C]; [|right; left; now apply memb_iff].
  apply orb_prop in C. destruct C as [C|C]; [apply memb_iff in C; contradiction|].
  left. apply memb_iff in C. now apply (names_in_iff grid_reads).
Qed.
