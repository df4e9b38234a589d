(** Lemmas about what does not matter to avalanching. *)
From Verif Require Import Base Avalanche_Model Avalanche_Spec Avalanche_Proofs Slide_Spec.
From Coq Require Import Reals Lra Lia Bool.
Open Scope R_scope.

Lemma swap_grad c u d : grad_neg c u d = grad_pos c d u.
Proof. reflexivity. Qed.
(** Two grids whose cells correspond. *)
Section Match.
Context (ny nx ny' nx' : nat) (r c : nat -> nat -> nat) (ds dn zne ds' dn' zne' : grid) (rel : R -> R).
Context (to : forall j i, (j < ny)%nat -> (i < nx)%nat -> (r j i < ny')%nat /\ (c j i < nx')%nat).
Context (onto : forall j' i', (j' < ny')%nat -> (i' < nx')%nat -> exists j i, (j < ny)%nat /\ (i < nx)%nat /\ r j i = j' /\ c j i = i').
Let corr (z z' : grid) : Prop := forall j i, (j < ny)%nat -> (i < nx)%nat -> z' (r j i) (c j i) = rel (z j i).
Let gh (z : grid) := grad_h (grad_down ny nx z ds dn).
Let gh' (z : grid) := grad_h (grad_down ny' nx' z ds' dn').
Context (sl : forall z z', corr z z' -> forall j i, (j < ny)%nat -> (i < nx)%nat -> gh' z' (r j i) (c j i) = gh z j i).
Context (st : forall td z z', corr z z' -> corr (relax ny nx ds dn zne td z) (relax ny' nx' ds' dn' zne' td z')).
Context (Py : (0 < ny)%nat) (Px : (0 < nx)%nat).
Lemma match_max z z' : corr z z' -> grid_max ny' nx' (gh' z') = grid_max ny nx (gh z).
Proof.
  intros H. destruct (to 0%nat 0%nat Py Px) as [A B]. apply Rle_antisym; apply grid_max_le; try lia.
  - intros j' i' Hj Hi. destruct (onto j' i' Hj Hi) as (j & i & Lj & Li & <- & <-). rewrite (sl z z' H j i Lj Li). apply grid_max_ge; assumption.
  - intros j i Hj Hi. rewrite <- (sl z z' H j i Hj Hi). destruct (to j i Hj Hi). apply grid_max_ge; assumption.
Qed.
Lemma match_loop td n : forall z z', corr z z' -> corr (avalanche_loop ny nx ds dn zne td n z) (avalanche_loop ny' nx' ds' dn' zne' td n z').
Proof.
  induction n as [|n IH]; intros z z' H; [exact H|]. cbn [avalanche_loop]. fold (gh z) (gh' z'). rewrite (match_max z z' H). destruct (Rltb _ td); [exact H|]. apply IH, st, H.
Qed.
Lemma match_all process ts tdy n z z' : corr z z' -> corr (avalanche process ny nx ds dn zne ts tdy n z) (avalanche process ny' nx' ds' dn' zne' ts tdy n z').
Proof.
  intros H. unfold avalanche. destruct process; [|exact H]. fold (gh z) (gh' z'). rewrite (match_max z z' H). destruct (Rgtb _ _); [|exact H]. apply match_loop, H.
Qed.
End Match.

(** ** The level of reference *)
Lemma gtb_shift a b h : Rgtb (a + h) (b + h) = Rgtb a b.
Proof. destruct (Rgtb_spec (a + h) (b + h)), (Rgtb_spec a b); auto; lra. Qed.
Lemma grad_shift c u d h : grad_pos (c + h) (u + h) (d + h) = grad_pos c u d.
Proof. unfold grad_pos. rewrite !gtb_shift. destruct (Rgtb u c && Rgtb d c)%bool; [reflexivity|]. destruct (Rgtb u d); ring. Qed.
Lemma inner_in n i : inner n i = true -> (1 <= i)%nat /\ (S i < n)%nat.
Proof. destruct (inner_spec n i); [auto|discriminate]. Qed.
Lemma lifted_grad ny nx h ds dn z z' d j i : lifted ny nx h z z' -> (j < ny)%nat -> (i < nx)%nat -> grad_down ny nx z' ds dn d j i = grad_down ny nx z ds dn d j i.
Proof.
  intros H Hj Hi. unfold grad_down. destruct (inner nx i && (Nat.eqb ny 1 || inner ny j))%bool eqn:E; [|reflexivity].
  apply andb_prop in E. destruct E as [E1 E2]. destruct (inner_in _ _ E1). rewrite !swap_grad.
  assert (S1 : grad_pos (z' j i) (z' j (S i)) (z' j (pred i)) = grad_pos (z j i) (z j (S i)) (z j (pred i))) by (rewrite !(H j) by lia; apply grad_shift).
  assert (S2 : grad_pos (z' j i) (z' j (pred i)) (z' j (S i)) = grad_pos (z j i) (z j (pred i)) (z j (S i))) by (rewrite !(H j) by lia; apply grad_shift).
  destruct (Nat.eqb_spec ny 1) as [N|N]; [destruct d as [|[|[|]]]; rewrite ?S1, ?S2; reflexivity|]. cbn in E2. destruct (inner_in _ _ E2).
  assert (S3 : grad_pos (z' j i) (z' (S j) i) (z' (pred j) i) = grad_pos (z j i) (z (S j) i) (z (pred j) i)) by (rewrite !(fun a => H a i) by lia; apply grad_shift).
  assert (S4 : grad_pos (z' j i) (z' (pred j) i) (z' (S j) i) = grad_pos (z j i) (z (pred j) i) (z (S j) i)) by (rewrite !(fun a => H a i) by lia; apply grad_shift).
  destruct d as [|[|[|]]]; rewrite ?S1, ?S2, ?S3, ?S4; reflexivity.
Qed.
(** The change of the bed depends on the fluxes of the cell and its neighbours. *)
Lemma q_same ny nx (f f' : nat -> grid) : (forall d j i, (j < ny)%nat -> (i < nx)%nat -> f' d j i = f d j i) -> forall j i, (j < ny)%nat -> (i < nx)%nat ->
  q_in ny nx f' j i - q_out f' j i = q_in ny nx f j i - q_out f j i.
Proof.
  intros H j i Hj Hi. unfold q_in, q_out. rewrite !(fun d => H d j i Hj Hi).
  destruct (Nat.eqb ny 1); [destruct (inner nx i) eqn:E; [|reflexivity]; apply inner_in in E; rewrite !(fun d a b => H d a b) by lia; reflexivity|].
  destruct (inner ny j && inner nx i)%bool eqn:E; [|reflexivity]. apply andb_prop in E. destruct E as [E1 E2]. apply inner_in in E1, E2. rewrite !H by lia. reflexivity.
Qed.
Lemma lifted_gradh ny nx h ds dn z z' j i : lifted ny nx h z z' -> (j < ny)%nat -> (i < nx)%nat -> grad_h (grad_down ny nx z' ds dn) j i = grad_h (grad_down ny nx z ds dn) j i.
Proof. intros H Hj Hi. unfold grad_h. rewrite !(fun d => lifted_grad ny nx h ds dn z z' d j i H Hj Hi). reflexivity. Qed.
Lemma datum : forall process ny nx ds dn zne zne' ts tdy n z z' h, lifted ny nx h zne zne' -> lifted ny nx h z z' ->
  lifted ny nx h (avalanche process ny nx ds dn zne ts tdy n z) (avalanche process ny nx ds dn zne' ts tdy n z').
Proof.
  intros process ny nx ds dn zne zne' ts tdy n z z' h Hn Hz j i Hj Hi.
  refine (match_all ny nx ny nx (fun j _ => j) (fun _ i => i) ds dn zne ds dn zne' (fun x => x + h) _ _ _ _ _ _ process ts tdy n z z' Hz j i Hj Hi); try lia.
  - intros a b La Lb. exists a, b. auto.
  - intros a b H ja ia Lj Li. apply (lifted_gradh ny nx h); assumption.
  - intros td a b H ja ia Lj Li. unfold relax. rewrite (H ja ia Lj Li).
    rewrite (q_same ny nx (fluxes ny nx ds dn zne td a) (fluxes ny nx ds dn zne' td b)); try assumption; [ring|].
    intros d jb ib Lj' Li'. unfold fluxes. rewrite (lifted_gradh ny nx h ds dn a b jb ib H Lj' Li'), (lifted_grad ny nx h ds dn a b d jb ib H Lj' Li'), (H jb ib Lj' Li'), (Hn jb ib Lj' Li').
    replace (a jb ib + h - (zne jb ib + h)) with (a jb ib - zne jb ib) by ring. reflexivity.
Qed.

(** ** Columns or rows in the other order *)
Definition across (d : nat) : nat := match d with 0%nat => 2%nat | 2%nat => 0%nat | d => d end.
Definition along (d : nat) : nat := match d with 1%nat => 3%nat | 2%nat => 2%nat | 0%nat => 0%nat | _ => 1%nat end.
Lemma inner_flip n i : (i < n)%nat -> inner n (n - 1 - i) = inner n i.
Proof. intros H. destruct (inner_spec n (n - 1 - i)), (inner_spec n i); auto; lia. Qed.
Section FlipS.
Context (ny nx : nat) (ds dn zne ds' dn' zne' : grid).
Context (Hs : flipped_s ny nx ds ds') (Hd : flipped_s ny nx dn dn') (Hn : flipped_s ny nx zne zne').
Lemma flip_s_grad z z' d j i : flipped_s ny nx z z' -> (j < ny)%nat -> (i < nx)%nat -> grad_down ny nx z' ds' dn' d j (nx - 1 - i)%nat = grad_down ny nx z ds dn (across d) j i.
Proof.
  intros H Hj Hi. unfold grad_down. rewrite inner_flip by assumption. destruct (inner nx i && (Nat.eqb ny 1 || inner ny j))%bool eqn:E; [|reflexivity].
  apply andb_prop in E. destruct E as [E1 E2]. destruct (inner_in _ _ E1).
  replace (S (nx - 1 - i)) with (nx - 1 - pred i)%nat by lia. replace (pred (nx - 1 - i)) with (nx - 1 - S i)%nat by lia. rewrite !swap_grad, (Hs j i Hj Hi), (Hd j i Hj Hi).
  rewrite !(H j) by lia. destruct (Nat.eqb_spec ny 1) as [N|N]; [destruct d as [|[|[|]]]; cbn [across]; rewrite ?swap_grad; reflexivity|]. cbn in E2. destruct (inner_in _ _ E2).
  rewrite !H by lia. destruct d as [|[|[|]]]; cbn [across]; rewrite ?swap_grad; reflexivity.
Qed.
Lemma flip_s_gradh z z' j i : flipped_s ny nx z z' -> (j < ny)%nat -> (i < nx)%nat -> grad_h (grad_down ny nx z' ds' dn') j (nx - 1 - i)%nat = grad_h (grad_down ny nx z ds dn) j i.
Proof. intros H Hj Hi. unfold grad_h. rewrite !(fun d => flip_s_grad z z' d j i H Hj Hi). cbn [across]. f_equal. ring. Qed.
Lemma flip_s_q (f f' : nat -> grid) : (forall d j i, (j < ny)%nat -> (i < nx)%nat -> f' d j (nx - 1 - i)%nat = f (across d) j i) -> forall j i, (j < ny)%nat -> (i < nx)%nat ->
  q_in ny nx f' j (nx - 1 - i)%nat - q_out f' j (nx - 1 - i)%nat = q_in ny nx f j i - q_out f j i.
Proof.
  intros H j i Hj Hi. unfold q_in, q_out. rewrite !(fun d => H d j i Hj Hi). rewrite inner_flip by assumption. cbn [across].
  destruct (Nat.eqb ny 1).
  - destruct (inner nx i) eqn:E; [|ring]. apply inner_in in E. replace (S (nx - 1 - i)) with (nx - 1 - pred i)%nat by lia. replace (pred (nx - 1 - i)) with (nx - 1 - S i)%nat by lia.
    rewrite !(fun d => H d j) by lia. cbn [across]. ring.
  - destruct (inner ny j && inner nx i)%bool eqn:E; [|ring]. apply andb_prop in E. destruct E as [E1 E2]. apply inner_in in E1, E2.
    replace (S (nx - 1 - i)) with (nx - 1 - pred i)%nat by lia. replace (pred (nx - 1 - i)) with (nx - 1 - S i)%nat by lia.
    rewrite !H by lia. cbn [across]. ring.
Qed.
Lemma flip_s_relax td z z' : flipped_s ny nx z z' -> flipped_s ny nx (relax ny nx ds dn zne td z) (relax ny nx ds' dn' zne' td z').
Proof.
  intros H j i Hj Hi. unfold relax. rewrite (H j i Hj Hi), (flip_s_q (fluxes ny nx ds dn zne td z) (fluxes ny nx ds' dn' zne' td z')); try assumption; [reflexivity|].
  intros d a b Ha Hb. unfold fluxes. rewrite (flip_s_gradh z z' a b H Ha Hb), (flip_s_grad z z' d a b H Ha Hb), (H a b Ha Hb), (Hn a b Ha Hb), (Hs a b Ha Hb). reflexivity.
Qed.
Lemma flip_s process ts tdy n z z' : flipped_s ny nx z z' -> flipped_s ny nx (avalanche process ny nx ds dn zne ts tdy n z) (avalanche process ny nx ds' dn' zne' ts tdy n z').
Proof.
  intros Hz j i Hj Hi.
  refine (match_all ny nx ny nx (fun j _ => j) (fun _ i => nx - 1 - i)%nat ds dn zne ds' dn' zne' (fun x => x) _ _ _ _ _ _ process ts tdy n z z' Hz j i Hj Hi); try lia.
  - intros a b La Lb. exists a, (nx - 1 - b)%nat. repeat split; lia.
  - intros a b H ja ia Lj Li. apply flip_s_gradh; assumption.
  - intros td a b H. apply (flip_s_relax td a b H).
Qed.
End FlipS.
Section FlipN.
Context (ny nx : nat) (ds dn zne ds' dn' zne' : grid).
Context (Hs : flipped_n ny nx ds ds') (Hd : flipped_n ny nx dn dn') (Hn : flipped_n ny nx zne zne').
Lemma flip_n_grad z z' d j i : flipped_n ny nx z z' -> (j < ny)%nat -> (i < nx)%nat -> grad_down ny nx z' ds' dn' d (ny - 1 - j)%nat i = grad_down ny nx z ds dn (along d) j i.
Proof.
  intros H Hj Hi. unfold grad_down. rewrite inner_flip by assumption. destruct (inner nx i && (Nat.eqb ny 1 || inner ny j))%bool eqn:E; [|reflexivity].
  apply andb_prop in E. destruct E as [E1 E2]. destruct (inner_in _ _ E1). rewrite !swap_grad, (Hs j i Hj Hi), (Hd j i Hj Hi).
  destruct (Nat.eqb_spec ny 1) as [N|N]; [rewrite !H by lia; destruct d as [|[|[|[|]]]]; cbn [along]; rewrite ?swap_grad; reflexivity|]. cbn in E2. destruct (inner_in _ _ E2).
  replace (S (ny - 1 - j)) with (ny - 1 - pred j)%nat by lia. replace (pred (ny - 1 - j)) with (ny - 1 - S j)%nat by lia.
  rewrite !H by lia. destruct d as [|[|[|[|]]]]; cbn [along]; rewrite ?swap_grad; reflexivity.
Qed.
Lemma flip_n_gradh z z' j i : flipped_n ny nx z z' -> (j < ny)%nat -> (i < nx)%nat -> grad_h (grad_down ny nx z' ds' dn') (ny - 1 - j)%nat i = grad_h (grad_down ny nx z ds dn) j i.
Proof. intros H Hj Hi. unfold grad_h. rewrite !(fun d => flip_n_grad z z' d j i H Hj Hi). cbn [along]. f_equal. ring. Qed.
Lemma flip_n_q (f f' : nat -> grid) : (forall d j i, (j < ny)%nat -> (i < nx)%nat -> f' d (ny - 1 - j)%nat i = f (along d) j i) -> forall j i, (j < ny)%nat -> (i < nx)%nat ->
  q_in ny nx f' (ny - 1 - j)%nat i - q_out f' (ny - 1 - j)%nat i = q_in ny nx f j i - q_out f j i.
Proof.
  intros H j i Hj Hi. unfold q_in, q_out. rewrite !(fun d => H d j i Hj Hi). rewrite inner_flip by assumption. cbn [along].
  destruct (Nat.eqb ny 1).
  - destruct (inner nx i) eqn:E; [|ring]. apply inner_in in E. rewrite !H by lia. cbn [along]. ring.
  - destruct (inner ny j && inner nx i)%bool eqn:E; [|ring]. apply andb_prop in E. destruct E as [E1 E2]. apply inner_in in E1, E2.
    replace (S (ny - 1 - j)) with (ny - 1 - pred j)%nat by lia. replace (pred (ny - 1 - j)) with (ny - 1 - S j)%nat by lia.
    rewrite !H by lia. cbn [along]. ring.
Qed.
Lemma flip_n_relax td z z' : flipped_n ny nx z z' -> flipped_n ny nx (relax ny nx ds dn zne td z) (relax ny nx ds' dn' zne' td z').
Proof.
  intros H j i Hj Hi. unfold relax. rewrite (H j i Hj Hi), (flip_n_q (fluxes ny nx ds dn zne td z) (fluxes ny nx ds' dn' zne' td z')); try assumption; [reflexivity|].
  intros d a b Ha Hb. unfold fluxes. rewrite (flip_n_gradh z z' a b H Ha Hb), (flip_n_grad z z' d a b H Ha Hb), (H a b Ha Hb), (Hn a b Ha Hb), (Hs a b Ha Hb). reflexivity.
Qed.
Lemma flip_n process ts tdy n z z' : flipped_n ny nx z z' -> flipped_n ny nx (avalanche process ny nx ds dn zne ts tdy n z) (avalanche process ny nx ds' dn' zne' ts tdy n z').
Proof.
  intros Hz j i Hj Hi.
  refine (match_all ny nx ny nx (fun j _ => ny - 1 - j)%nat (fun _ i => i) ds dn zne ds' dn' zne' (fun x => x) _ _ _ _ _ _ process ts tdy n z z' Hz j i Hj Hi); try lia.
  - intros a b La Lb. exists (ny - 1 - a)%nat, b. repeat split; lia.
  - intros a b H ja ia Lj Li. apply flip_n_gradh; assumption.
  - intros td a b H. apply (flip_n_relax td a b H).
Qed.
End FlipN.
(** ** Rows and columns exchanged *)
Definition turned (d : nat) : nat := match d with 0%nat => 1%nat | 1%nat => 0%nat | 2%nat => 3%nat | _ => 2%nat end.
Section Exchange.
Context (ny nx : nat) (ds dn zne ds' dn' zne' : grid) (Ny : (2 <= ny)%nat) (Nx : (2 <= nx)%nat).
Context (Hs : exchanged ny nx ds dn') (Hd : exchanged ny nx dn ds') (Hn : exchanged ny nx zne zne') (Sq : forall j i, (j < ny)%nat -> (i < nx)%nat -> dn j i = ds j i).
Lemma turn_grad z z' d j i : exchanged ny nx z z' -> (j < ny)%nat -> (i < nx)%nat -> grad_down nx ny z' ds' dn' d i j = grad_down ny nx z ds dn (turned d) j i.
Proof.
  intros H Hj Hi. unfold grad_down. destruct (Nat.eqb_spec nx 1); [lia|]. destruct (Nat.eqb_spec ny 1); [lia|]. rewrite (andb_comm (inner ny j)). cbn [orb].
  destruct (inner nx i && inner ny j)%bool eqn:E; [|reflexivity].
  apply andb_prop in E. destruct E as [E1 E2]. destruct (inner_in _ _ E1). destruct (inner_in _ _ E2). rewrite (Hs j i Hj Hi), (Hd j i Hj Hi). rewrite !H by lia.
  destruct d as [|[|[|[|]]]]; reflexivity.
Qed.
Lemma turn_gradh z z' j i : exchanged ny nx z z' -> (j < ny)%nat -> (i < nx)%nat -> grad_h (grad_down nx ny z' ds' dn') i j = grad_h (grad_down ny nx z ds dn) j i.
Proof. intros H Hj Hi. unfold grad_h. rewrite !(fun d => turn_grad z z' d j i H Hj Hi). cbn [turned]. f_equal. ring. Qed.
Lemma turn_q (f f' : nat -> grid) : (forall d j i, (j < ny)%nat -> (i < nx)%nat -> f' d i j = f (turned d) j i) -> forall j i, (j < ny)%nat -> (i < nx)%nat ->
  q_in nx ny f' i j - q_out f' i j = q_in ny nx f j i - q_out f j i.
Proof.
  intros H j i Hj Hi. unfold q_in, q_out. rewrite !(fun d => H d j i Hj Hi). cbn [turned]. destruct (Nat.eqb_spec nx 1); [lia|]. destruct (Nat.eqb_spec ny 1); [lia|]. rewrite (andb_comm (inner nx i)).
  destruct (inner ny j && inner nx i)%bool eqn:E; [|ring]. apply andb_prop in E. destruct E as [E1 E2]. apply inner_in in E1, E2. rewrite !H by lia. cbn [turned]. ring.
Qed.
Lemma turn_relax td z z' : exchanged ny nx z z' -> exchanged ny nx (relax ny nx ds dn zne td z) (relax nx ny ds' dn' zne' td z').
Proof.
  intros H j i Hj Hi. unfold relax. rewrite (H j i Hj Hi), (turn_q (fluxes ny nx ds dn zne td z) (fluxes nx ny ds' dn' zne' td z')); try assumption; [reflexivity|].
  intros d a b Ha Hb. unfold fluxes. rewrite (turn_gradh z z' a b H Ha Hb), (turn_grad z z' d a b H Ha Hb), (H a b Ha Hb), (Hn a b Ha Hb), (Hd a b Ha Hb), (Sq a b Ha Hb). reflexivity.
Qed.
Lemma turn process ts tdy n z z' : exchanged ny nx z z' -> exchanged ny nx (avalanche process ny nx ds dn zne ts tdy n z) (avalanche process nx ny ds' dn' zne' ts tdy n z').
Proof.
  intros Hz j i Hj Hi.
  refine (match_all ny nx nx ny (fun _ i => i) (fun j _ => j) ds dn zne ds' dn' zne' (fun x => x) _ _ _ _ _ _ process ts tdy n z z' Hz j i Hj Hi); try lia.
  - intros a b La Lb. exists b, a. repeat split; lia.
  - intros a b H ja ia Lj Li. apply turn_gradh; assumption.
  - intros td a b H. apply (turn_relax td a b H).
Qed.
End Exchange.
(** ** The unit of length: a pass changes the bed by as many units, whatever the unit. *)
Lemma gtb_scale k a b : 0 < k -> Rgtb (k * a) (k * b) = Rgtb a b.
Proof. intros K. destruct (Rgtb_spec (k * a) (k * b)) as [L|L], (Rgtb_spec a b) as [M|M]; auto; exfalso; [apply M, (Rmult_lt_reg_l k); assumption|apply L, Rmult_lt_compat_l; assumption]. Qed.
Lemma grad_scale k c u d : 0 < k -> grad_pos (k * c) (k * u) (k * d) = k * grad_pos c u d.
Proof. intros K. unfold grad_pos. rewrite !gtb_scale by assumption. destruct (Rgtb u c && Rgtb d c)%bool; [ring|]. destruct (Rgtb u d); ring. Qed.
Section Unit.
Context (ny nx : nat) (k : R) (K : 0 < k) (ds dn zne ds' dn' zne' : grid) (P : forall j i, (j < ny)%nat -> (i < nx)%nat -> 0 < ds j i /\ 0 < dn j i).
Context (Hs : in_unit ny nx k ds ds') (Hd : in_unit ny nx k dn dn') (Hn : in_unit ny nx k zne zne').
Lemma ratio a b : 0 < b -> k * a / (k * b) = a / b.
Proof. intros B. field. split; lra. Qed.
Lemma unit_grad z z' d j i : in_unit ny nx k z z' -> (j < ny)%nat -> (i < nx)%nat -> grad_down ny nx z' ds' dn' d j i = grad_down ny nx z ds dn d j i.
Proof.
  intros H Hj Hi. unfold grad_down. destruct (P j i Hj Hi). destruct (inner nx i && (Nat.eqb ny 1 || inner ny j))%bool eqn:E; [|reflexivity].
  apply andb_prop in E. destruct E as [E1 E2]. destruct (inner_in _ _ E1). rewrite !swap_grad, (Hs j i Hj Hi), (Hd j i Hj Hi).
  rewrite !(H j) by lia. rewrite !grad_scale, !ratio by assumption.
  destruct (Nat.eqb_spec ny 1) as [N|N]; [reflexivity|]. cbn in E2. destruct (inner_in _ _ E2).
  rewrite !H by lia. rewrite !grad_scale, !ratio by assumption. reflexivity.
Qed.
Lemma unit_pass td z z' j i : in_unit ny nx k z z' -> (j < ny)%nat -> (i < nx)%nat -> relax ny nx ds' dn' zne' td z' j i - z' j i = relax ny nx ds dn zne td z j i - z j i.
Proof.
  intros H Hj Hi. unfold relax. rewrite (q_same ny nx (fluxes ny nx ds dn zne td z) (fluxes ny nx ds' dn' zne' td z')); try assumption; [ring|].
  intros d a b Ha Hb. destruct (P a b Ha Hb). unfold fluxes, grad_h. rewrite !(fun d => unit_grad z z' d a b H Ha Hb), (H a b Ha Hb), (Hn a b Ha Hb), (Hs a b Ha Hb).
  rewrite <- Rmult_minus_distr_l, ratio by assumption. reflexivity.
Qed.
End Unit.
(** ** Closed forms *)
Lemma flip_s_all : forall process ny nx ds dn zne ds' dn' zne' ts tdy n z z', flipped_s ny nx ds ds' -> flipped_s ny nx dn dn' -> flipped_s ny nx zne zne' -> flipped_s ny nx z z' ->
  flipped_s ny nx (avalanche process ny nx ds dn zne ts tdy n z) (avalanche process ny nx ds' dn' zne' ts tdy n z').
Proof. intros. apply flip_s; assumption. Qed.
Lemma flip_n_all : forall process ny nx ds dn zne ds' dn' zne' ts tdy n z z', flipped_n ny nx ds ds' -> flipped_n ny nx dn dn' -> flipped_n ny nx zne zne' -> flipped_n ny nx z z' ->
  flipped_n ny nx (avalanche process ny nx ds dn zne ts tdy n z) (avalanche process ny nx ds' dn' zne' ts tdy n z').
Proof. intros. apply flip_n; assumption. Qed.
Lemma turn_all : forall process ny nx ds dn zne ds' dn' zne' ts tdy n z z', (2 <= ny)%nat -> (2 <= nx)%nat -> (forall j i, (j < ny)%nat -> (i < nx)%nat -> dn j i = ds j i) ->
  exchanged ny nx ds dn' -> exchanged ny nx dn ds' -> exchanged ny nx zne zne' -> exchanged ny nx z z' ->
  exchanged ny nx (avalanche process ny nx ds dn zne ts tdy n z) (avalanche process nx ny ds' dn' zne' ts tdy n z').
Proof. intros. apply turn; assumption. Qed.
Lemma unit_all : forall ny nx k ds dn zne ds' dn' zne' td z z' j i, 0 < k -> (forall j i, (j < ny)%nat -> (i < nx)%nat -> 0 < ds j i /\ 0 < dn j i) ->
  in_unit ny nx k ds ds' -> in_unit ny nx k dn dn' -> in_unit ny nx k zne zne' -> in_unit ny nx k z z' -> (j < ny)%nat -> (i < nx)%nat ->
  relax ny nx ds' dn' zne' td z' j i - z' j i = relax ny nx ds dn zne td z j i - z j i.
Proof. intros. apply (unit_pass ny nx k); assumption. Qed.
