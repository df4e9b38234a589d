(** Lemmas about fence heights. *)
From Coq Require Import Lia.
From Verif Require Import Base Num Fence_Model Fence_Spec.
Open Scope Q_scope.

Lemma update_top f z : top (update_fence_height f z) = top f.
Proof. reflexivity. Qed.
Lemma update_gone f z : init f < 1 # 10 -> init (update_fence_height f z) < 1 # 10 /\ height (update_fence_height f z) = 0.
Proof.
  intros H. unfold update_fence_height. cbn [init height]. destruct (Qltb_spec (init f) (1 # 10)); [|lra].
  assert (E : (if Qltb (if Qltb (top f) (1 # 10) then 0 else 0) (1 # 10) then 0 else if Qltb (top f) (1 # 10) then 0 else 0) = 0) by (destruct (Qltb (top f) (1 # 10)); reflexivity).
  rewrite E. cbn. split; auto.
Qed.
Lemma update_low f z : top f < 1 # 10 -> init (update_fence_height f z) = init f /\ height (update_fence_height f z) = 0.
Proof. intros H. unfold update_fence_height. cbn [init height]. destruct (Qltb_spec (top f) (1 # 10)); [|lra]. cbn. split; auto. Qed.
Lemma update_standing f z : 1 # 10 <= init f -> 1 # 10 <= top f ->
  (undermined (top f) z -> init (update_fence_height f z) = 0 /\ height (update_fence_height f z) = 0) /\
  (~ undermined (top f) z -> init (update_fence_height f z) = init f /\ ((1 # 10 <= top f - z -> height (update_fence_height f z) = top f - z) /\ (~ 1 # 10 <= top f - z -> height (update_fence_height f z) = 0))).
Proof.
  intros I T. unfold update_fence_height, undermined. cbn [init height]. destruct (Qltb_spec (init f) (1 # 10)); [lra|]. destruct (Qltb_spec (top f) (1 # 10)); [lra|].
  destruct (Qltb_spec (top f - z) (1 # 10)).
  - destruct (Qltb_spec (3 # 2) 0); [lra|]. split; intros U; [lra|]. split; auto. split; intros; [lra|auto].
  - destruct (Qltb_spec (3 # 2) (top f - z)); split; intros U; try lra; auto. split; auto. split; intros; auto. lra.
Qed.
Lemma history_snoc h z0 zs z : history h z0 (zs ++ [z]) = update_fence_height (history h z0 zs) z.
Proof. unfold history. rewrite fold_left_app. reflexivity. Qed.
Lemma history_state h z0 zs : top (history h z0 zs) = z0 + h /\
  (built h (z0 + h) -> Forall (fun y => ~ undermined (z0 + h) y) zs -> init (history h z0 zs) = h) /\
  (built h (z0 + h) -> ~ Forall (fun y => ~ undermined (z0 + h) y) zs -> init (history h z0 zs) = 0) /\
  (h < 1 # 10 -> init (history h z0 zs) < 1 # 10).
Proof.
  induction zs as [|z zs IH] using rev_ind; [cbn; repeat split; auto; intros; elim H0; constructor|]. rewrite history_snoc. destruct IH as [T [A [B C]]]. rewrite update_top. split; auto.
  assert (D : forall y, {undermined (z0 + h) y} + {~ undermined (z0 + h) y}) by (intros y; unfold undermined; destruct (Qlt_le_dec (3 # 2) (z0 + h - y)); [left; auto|right; lra]).
  assert (DF : forall l, {Forall (fun y => ~ undermined (z0 + h) y) l} + {~ Forall (fun y => ~ undermined (z0 + h) y) l}) by (intros; apply Forall_dec; intros y; destruct (D y); [right|left]; auto).
  split; [|split].
  - intros BU F. apply Forall_app in F. destruct F as [F Z]. inversion Z; subst. destruct BU as [B1 B2]. destruct (update_standing (history h z0 zs) z) as [_ U]; [rewrite A; [auto|split; auto|auto]|rewrite T; auto|].
    rewrite T in U. destruct (U H1) as [-> _]. apply A; auto. split; auto.
  - intros BU F. destruct (DF zs) as [F'|F'].
    + assert (W : undermined (z0 + h) z). { destruct (D z); auto. elim F. apply Forall_app. split; auto. }
      destruct BU as [B1 B2]. destruct (update_standing (history h z0 zs) z) as [U _]; [rewrite A; [auto|split; auto|auto]|rewrite T; auto|]. rewrite T in U. apply U; auto.
    + specialize (B BU F'). unfold update_fence_height. cbn [init]. destruct (Qltb _ _); auto.
  - intros L. apply update_gone; auto.
Qed.
Lemma history_height h z0 zs z : stands h z0 zs z (height (history h z0 (zs ++ [z]))).
Proof.
  rewrite history_snoc. destruct (history_state h z0 zs) as [T [A [B C]]].
  destruct (Qlt_le_dec h (1 # 10)) as [L|L].
  { destruct (update_gone (history h z0 zs) z) as [_ ->]; [auto|]. apply stands_not. intros [[X _] _]. lra. }
  destruct (Qlt_le_dec (z0 + h) (1 # 10)) as [M|M].
  { destruct (update_low (history h z0 zs) z) as [_ ->]; [rewrite T; auto|]. apply stands_not. intros [[_ X] _]. lra. }
  assert (BU : built h (z0 + h)) by (split; auto).
  assert (DF : forall l, {Forall (fun y => ~ undermined (z0 + h) y) l} + {~ Forall (fun y => ~ undermined (z0 + h) y) l}).
  { intros. apply Forall_dec. intros y. unfold undermined. destruct (Qlt_le_dec (3 # 2) (z0 + h - y)); [right; tauto|left; lra]. }
  destruct (DF zs) as [F|F].
  - destruct (update_standing (history h z0 zs) z) as [U V]; [rewrite A; auto|rewrite T; auto|]. rewrite T in U, V. destruct (Qlt_le_dec (3 # 2) (z0 + h - z)) as [W|W].
    + destruct (U W) as [_ ->]. apply stands_not. intros [_ [X _]]. apply Forall_app in X. destruct X as [_ X]. inversion X; subst. contradiction.
    + assert (NW : ~ undermined (z0 + h) z) by (unfold undermined; lra). destruct (V NW) as [_ [P N]]. destruct (Qlt_le_dec (z0 + h - z) (1 # 10)).
      * rewrite N by lra. apply stands_not. intros [_ [_ X]]. lra.
      * rewrite P by auto. apply stands_up; auto. apply Forall_app. split; auto.
  - destruct (update_gone (history h z0 zs) z) as [_ ->]; [rewrite B by auto; reflexivity|]. apply stands_not. intros [_ [X _]]. apply Forall_app in X. tauto.
Qed.
Lemma stands_range h z0 zs z q : stands h z0 zs z q -> q == 0 \/ (1 # 10 <= q <= 3 # 2 /\ q == z0 + h - z).
Proof.
  intros [B F T|N]; [|left; reflexivity]. right. apply Forall_app in F. destruct F as [_ F]. inversion F; subst. unfold undermined in H1. split; [|reflexivity]. lra.
Qed.
