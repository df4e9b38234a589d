(** Fence heights: assembled statements and concrete cases. *)
From Coq Require Import Lia.
From Verif Require Import Base Num Fence_Model Fence_Spec Fence_Proofs.
Open Scope Q_scope.

Lemma c44_range h z0 zs z : let q := height (history h z0 (zs ++ [z])) in q == 0 \/ (1 # 10 <= q <= 3 # 2 /\ q == z0 + h - z).
Proof. cbv zeta. apply (stands_range h z0 zs z), history_height. Qed.
Lemma c44_none h z0 zs z : h < 1 # 10 -> height (history h z0 (zs ++ [z])) = 0.
Proof. intros H. destruct (history_height h z0 zs z) as [[B _] _ _|_]; auto. lra. Qed.
Lemma c44_gone h z0 zs y ys z : undermined (z0 + h) y -> height (history h z0 ((zs ++ y :: ys) ++ [z])) = 0.
Proof.
  intros U. destruct (history_height h z0 (zs ++ y :: ys) z) as [_ F _|_]; auto. exfalso. rewrite <- app_assoc in F. apply Forall_app in F. destruct F as [_ F]. inversion F; subst. contradiction.
Qed.
Lemma c44_case : height (history 1 2 ([5 # 2; 3] ++ [11 # 5])) == 8 # 10 /\ height (history 1 2 [5 # 2; 3]) == 0 /\ height (history 1 2 [1]) == 0 /\ height (history 1 2 ([1] ++ [2])) == 0.
Proof. repeat split; reflexivity. Qed.
Lemma c44_none_case : 0 < 1 # 10 /\ height (history 0 2 [1]) == 0.
Proof. split; reflexivity. Qed.
Lemma c44_gone_case : undermined (2 + 1) 1 /\ height (history 1 2 (([5 # 2] ++ [1; 2]) ++ [3 # 2])) == 0 /\ height (history 1 2 (([5 # 2] ++ [2]) ++ [3 # 2])) == 3 # 2.
Proof. repeat split; reflexivity. Qed.

(** ** C94 *)
Lemma c94_height h z0 zs z : built h (z0 + h) -> Forall (fun y => ~ undermined (z0 + h) y) (zs ++ [z]) ->
  height (history h z0 (zs ++ [z])) = if Qle_bool (1 # 10) (z0 + h - z) then z0 + h - z else 0.
Proof.
  intros B F. destruct (history_height h z0 zs z) as [_ _ T|N]; destruct (Qle_bool_spec (1 # 10) (z0 + h - z)); auto; [contradiction|]. elim N. auto.
Qed.
Lemma c94_shift c h z0 zs z : 1 # 10 <= z0 + h -> 1 # 10 <= z0 + c + h ->
  height (history h (z0 + c) (map (fun y => y + c) zs ++ [z + c])) == height (history h z0 (zs ++ [z])).
Proof.
  intros T T'. assert (U : forall y, undermined (z0 + c + h) (y + c) <-> undermined (z0 + h) y) by (intros; unfold undermined; split; intros; lra).
  assert (F : Forall (fun y => ~ undermined (z0 + c + h) y) (map (fun y => y + c) zs ++ [z + c]) <-> Forall (fun y => ~ undermined (z0 + h) y) (zs ++ [z])).
  { rewrite !Forall_app, Forall_map. assert (S : forall l, Forall (fun y => ~ undermined (z0 + c + h) (y + c)) l <-> Forall (fun y => ~ undermined (z0 + h) y) l).
    { intros l. split; apply Forall_impl; intros y Y X; apply Y, U, X. }
    rewrite (S zs). specialize (S [z]). split; intros [P Q]; split; auto.
    - apply S. inversion Q; subst. constructor; auto.
    - apply S in Q. inversion Q; subst. constructor; auto. }
  destruct (history_height h z0 zs z) as [B G L|N], (history_height h (z0 + c) (map (fun y => y + c) zs) (z + c)) as [B' G' L'|N']; try reflexivity; try lra.
  - elim N'. split; [split; [apply B|auto]|]. split; [apply F; auto|lra].
  - elim N. split; [split; [apply B'|auto]|]. split; [apply F; auto|lra].
Qed.
Lemma c94_case : built 1 (2 + 1) /\ Forall (fun y => ~ undermined (2 + 1) y) ([5 # 2] ++ [2]) /\ 1 # 10 <= 2 + 10 + 1.
Proof. split; [split; discriminate|]. split; [|discriminate]. cbn. repeat (constructor; [unfold undermined; intros H; vm_compute in H; discriminate|]). constructor. Qed.
(** A fence 1 m high on a bed 2 m below datum is never there. *)
Lemma c94_datum : exists c h z0 z, height (history h z0 [z]) == 1 /\ height (history h (z0 + c) [z + c]) == 0.
Proof. exists (-4), 1, 2, 2. split; reflexivity. Qed.
(** A fence 2 m high is gone at once, and for ever. *)
Lemma c94_tall : exists h z0, 1 # 10 <= h /\ 1 # 10 <= z0 + h /\ forall zs z, height (history h z0 ((z0 :: zs) ++ [z])) = 0.
Proof. exists 2, 2. split; [discriminate|]. split; [discriminate|]. intros zs z. apply (c44_gone 2 2 [] 2 zs z). unfold undermined. reflexivity. Qed.
