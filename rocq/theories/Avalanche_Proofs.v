(** Proofs about avalanching. *)
From Verif Require Import Base Avalanche_Model Avalanche_Spec.
From Coq Require Import Reals Lra Lia Psatz.
Open Scope R_scope.

(** ** tanh *)
Lemma tanh_exp x : tanh x = 1 - 2 / (exp (2 * x) + 1).
Proof.
  unfold tanh, sinh, cosh. assert (H : exp (2 * x) = exp x * exp x) by (rewrite <- exp_plus; f_equal; lra).
  rewrite H, exp_Ropp. pose proof (exp_pos x). field. split; nra.
Qed.
Lemma tanh_lt x y : x < y -> tanh x < tanh y.
Proof.
  intros H. rewrite !tanh_exp. pose proof (exp_pos (2 * x)). assert (exp (2 * x) < exp (2 * y)) by (apply exp_increasing; lra).
  assert (/ (exp (2 * y) + 1) < / (exp (2 * x) + 1)) by (apply Rinv_lt_contravar; [apply Rmult_lt_0_compat; lra|lra]).
  unfold Rdiv. lra.
Qed.
Lemma tanh_le x y : x <= y -> tanh x <= tanh y.
Proof. intros [H|H]; [left; now apply tanh_lt|subst; lra]. Qed.
Lemma tanh_0' : tanh 0 = 0.
Proof. rewrite tanh_exp, Rmult_0_r, exp_0. lra. Qed.
Lemma tanh_lt_1 x : tanh x < 1.
Proof. rewrite tanh_exp. assert (0 < / (exp (2 * x) + 1)) by (apply Rinv_0_lt_compat; pose proof (exp_pos (2 * x)); lra). unfold Rdiv. lra. Qed.
Lemma tanh_nonneg x : 0 <= x -> 0 <= tanh x.
Proof. intros H. rewrite <- tanh_0'. now apply tanh_le. Qed.
(** The slope of tanh is at most one. *)
Lemma tanh_lip x y : x <= y -> tanh y - tanh x <= y - x.
Proof.
  intros [H|H]; [|subst; lra].
  assert (D : forall c, derivable_pt_lim (fun z => z - tanh z) c (1 - 1 / (cosh c * cosh c))).
  { intros c. apply derivable_pt_lim_minus; [apply derivable_pt_lim_id|].
    assert (Hc : cosh c <> 0) by (unfold cosh; pose proof (exp_pos c); pose proof (exp_pos (- c)); lra).
    replace (1 / (cosh c * cosh c)) with ((cosh c * cosh c - sinh c * sinh c) / Rsqr (cosh c)).
    - apply (derivable_pt_lim_div sinh cosh); [apply derivable_pt_lim_sinh|apply derivable_pt_lim_cosh|exact Hc].
    - unfold Rsqr. assert (E : cosh c * cosh c - sinh c * sinh c = 1); [|rewrite E; reflexivity].
      unfold cosh, sinh. rewrite exp_Ropp. pose proof (exp_pos c). field. lra. }
  destruct (MVT_cor2 (fun z => z - tanh z) (fun c => 1 - 1 / (cosh c * cosh c)) x y H (fun c _ => D c)) as [c [E _]].
  assert (1 <= cosh c).
  { unfold cosh. rewrite exp_Ropp. pose proof (exp_pos c) as P. assert (Q : exp c + / exp c - 2 = (exp c - 1) * (exp c - 1) / exp c) by (field; lra).
    assert (0 <= (exp c - 1) * (exp c - 1) / exp c); [|lra].
    unfold Rdiv. apply Rmult_le_pos; [apply Rle_0_sqr|left; now apply Rinv_0_lt_compat]. }
  assert (1 / (cosh c * cosh c) <= 1) by (apply Rmult_le_reg_r with (cosh c * cosh c); [nra|unfold Rdiv; rewrite Rmult_1_l, Rinv_l by nra; nra]).
  assert (0 <= (1 - 1 / (cosh c * cosh c)) * (y - x)) by (apply Rmult_le_pos; lra).
  lra.
Qed.
Lemma tanh_le_id x : 0 <= x -> tanh x <= x.
Proof. intros H. pose proof (tanh_lip 0 x H). rewrite tanh_0' in H0. lra. Qed.

(** ** Gradients *)
Lemma Rgtb_spec x y : Bool.reflect (y < x) (Rgtb x y).
Proof. unfold Rgtb. destruct (Rlt_dec y x); now constructor. Qed.
Lemma Rltb_spec x y : Bool.reflect (x < y) (Rltb x y).
Proof. unfold Rltb. destruct (Rlt_dec x y); now constructor. Qed.

Lemma drop_nonneg c a b : 0 <= drop c a b.
Proof. apply Rmax_l. Qed.
Ltac cases := unfold grad_pos, grad_neg, drop, Rmax, Rmin, Rabs in *;
  repeat match goal with |- context [Rgtb ?a ?b] => destruct (Rgtb_spec a b); cbn [andb]
  | |- context [Rle_dec ?a ?b] => destruct (Rle_dec a b) | _ : context [Rle_dec ?a ?b] |- _ => destruct (Rle_dec a b) | |- context [Rcase_abs ?a] => destruct (Rcase_abs a) end; try lra.
Lemma grad_pos_abs c u d : Rabs (grad_pos c u d) = drop c u d.
Proof. cases. Qed.
Lemma grad_neg_abs c u d : Rabs (grad_neg c u d) = drop c u d.
Proof. cases. Qed.
Lemma grad_pos_sq c u d : grad_pos c u d * grad_pos c u d = drop c u d * drop c u d.
Proof. rewrite <- grad_pos_abs. change (Rsqr (grad_pos c u d) = Rsqr (Rabs (grad_pos c u d))). apply Rsqr_abs. Qed.
Lemma grad_neg_sq c u d : grad_neg c u d * grad_neg c u d = drop c u d * drop c u d.
Proof. rewrite <- grad_neg_abs. change (Rsqr (grad_neg c u d) = Rsqr (Rabs (grad_neg c u d))). apply Rsqr_abs. Qed.

Lemma inner_spec n i : Bool.reflect ((1 <= i)%nat /\ (S i < n)%nat) (inner n i).
Proof.
  unfold inner. destruct (Nat.leb_spec0 1 i); cbn [andb]; [|constructor; lia]. destruct (Nat.ltb_spec0 (S i) n); constructor; lia.
Qed.
Lemma grad_border ny nx zb ds dn d j i : on_border ny nx j i -> grad_down ny nx zb ds dn d j i = 0.
Proof.
  intros H. unfold grad_down. destruct (inner_spec nx i) as [Hi|Hi]; cbn [andb]; [|reflexivity].
  destruct (Nat.eqb_spec ny 1) as [E|E]; cbn [orb].
  - unfold on_border in H. lia.
  - destruct (inner_spec ny j) as [Hj|Hj]; [|reflexivity]. unfold on_border in H. lia.
Qed.
Lemma not_border ny nx j i : (j < ny)%nat -> (i < nx)%nat -> ~ on_border ny nx j i ->
  inner nx i = true /\ (Nat.eqb ny 1 || inner ny j)%bool = true.
Proof.
  intros Hj Hi H. unfold on_border in H. split.
  - destruct (inner_spec nx i); [reflexivity|lia].
  - destruct (Nat.eqb_spec ny 1); cbn [orb]; [reflexivity|]. destruct (inner_spec ny j); [reflexivity|lia].
Qed.
Lemma border_dec ny nx j i : on_border ny nx j i \/ ~ on_border ny nx j i.
Proof. unfold on_border. lia. Qed.

(** The code's grad_h is the slope. *)
Lemma grad_h_slope ny nx zb ds dn j i : (j < ny)%nat -> (i < nx)%nat -> ~ on_border ny nx j i ->
  grad_h (grad_down ny nx zb ds dn) j i = slope ny zb ds dn j i.
Proof.
  intros Hj Hi H. destruct (not_border ny nx j i Hj Hi H) as [E1 E2]. unfold grad_h, slope. f_equal. unfold grad_down. rewrite E1, E2. cbn [andb].
  assert (S1 : forall a b, a / b * (a / b) = a * a * (/ b * / b)) by (intros; unfold Rdiv; ring).
  destruct (Nat.eqb ny 1); rewrite !S1, ?grad_pos_sq, ?grad_neg_sq; lra.
Qed.
Lemma grad_h_border ny nx zb ds dn j i : on_border ny nx j i -> grad_h (grad_down ny nx zb ds dn) j i = 0.
Proof. intros H. unfold grad_h. rewrite !grad_border by exact H. etransitivity; [|exact sqrt_0]. f_equal. lra. Qed.

(** ** Maximum over the grid *)
Lemma cells_in ny nx j i : In (j, i) (cells ny nx) <-> (j < ny)%nat /\ (i < nx)%nat.
Proof.
  unfold cells. rewrite in_flat_map. split.
  - intros [x [Hx H]]. apply in_map_iff in H. destruct H as [y [E Hy]]. injection E as -> ->. apply in_seq in Hx, Hy. lia.
  - intros [Hj Hi]. exists j. split; [apply in_seq; lia|]. apply in_map_iff. exists i. split; [reflexivity|apply in_seq; lia].
Qed.
Lemma fold_max_ge d l x : In x l -> x <= fold_right Rmax d l.
Proof. induction l as [|a l IH]; intros []; cbn; [subst; apply Rmax_l|]. eapply Rle_trans; [now apply IH|apply Rmax_r]. Qed.
Lemma fold_max_le d l b : d <= b -> (forall x, In x l -> x <= b) -> fold_right Rmax d l <= b.
Proof. induction l as [|a l IH]; intros Hd H; cbn; [exact Hd|]. apply Rmax_lub; [apply H; now left|apply IH; [exact Hd|intros x Hx; apply H; now right]]. Qed.
Lemma grid_max_ge ny nx f j i : (j < ny)%nat -> (i < nx)%nat -> f j i <= grid_max ny nx f.
Proof. intros Hj Hi. apply fold_max_ge. apply in_map_iff. exists (j, i). split; [reflexivity|now apply cells_in]. Qed.
Lemma grid_max_le ny nx f b : (0 < ny)%nat -> (0 < nx)%nat -> (forall j i, (j < ny)%nat -> (i < nx)%nat -> f j i <= b) -> grid_max ny nx f <= b.
Proof.
  intros Hy Hx H. apply fold_max_le; [now apply H|]. intros x Hin. apply in_map_iff in Hin. destruct Hin as [[j i] [<- Hc]]. apply cells_in in Hc. now apply H.
Qed.

(** ** Fluxes *)
Lemma flux_zero sd gh : flux sd gh 0 = 0.
Proof. unfold flux. destruct (Req_EM_T gh 0); [reflexivity|]. unfold Rdiv. ring. Qed.
Lemma fluxes_border ny nx ds dn zne td zb d j i : on_border ny nx j i -> fluxes ny nx ds dn zne td zb d j i = 0.
Proof. intros H. unfold fluxes. rewrite grad_border by exact H. apply flux_zero. Qed.
Lemma fluxes_row nx ds dn zne td zb d j i : (d = 1 \/ d = 3)%nat -> fluxes 1 nx ds dn zne td zb d j i = 0.
Proof.
  intros H. unfold fluxes. replace (grad_down 1 nx zb ds dn d j i) with 0; [apply flux_zero|]. unfold grad_down. cbn [Nat.eqb].
  destruct H as [-> | ->]; destruct (inner nx i && _)%bool; reflexivity.
Qed.

(** What a cell gives to its four neighbours. *)
Definition to_right (f : nat -> grid) j i := 1 / 2 * (Rmax (f 0%nat j i) 0 - Rmin (f 2%nat j i) 0).
Definition to_left (f : nat -> grid) j i := 1 / 2 * (Rmax (f 2%nat j i) 0 - Rmin (f 0%nat j i) 0).
Definition to_up (f : nat -> grid) j i := 1 / 2 * (Rmax (f 1%nat j i) 0 - Rmin (f 3%nat j i) 0).
Definition to_down (f : nat -> grid) j i := 1 / 2 * (Rmax (f 3%nat j i) 0 - Rmin (f 1%nat j i) 0).
Lemma maxmin x : 0 <= Rmax x 0 /\ Rmin x 0 <= 0.
Proof. split; [apply Rmax_r|apply Rmin_r]. Qed.
Lemma q_out_split f j i : q_out f j i = to_right f j i + to_left f j i + to_up f j i + to_down f j i.
Proof.
  assert (A : forall x, Rabs x = Rmax x 0 - Rmin x 0).
  { intros x. unfold Rabs, Rmax, Rmin. destruct (Rcase_abs x), (Rle_dec x 0); lra. }
  unfold q_out, to_right, to_left, to_up, to_down. rewrite !A. lra.
Qed.
(** What would arrive in a cell if the border received it. *)
Definition arrives (ny nx : nat) (f : nat -> grid) (j i : nat) : R :=
  match i with O => 0 | S i' => to_right f j i' end + (if Nat.ltb (S i) nx then to_left f j (S i) else 0)
  + (match j with O => 0 | S j' => to_up f j' i end + (if Nat.ltb (S j) ny then to_down f (S j) i else 0)).
Lemma arrives_nonneg ny nx f j i : 0 <= arrives ny nx f j i.
Proof.
  assert (P : forall x y, 0 <= 1 / 2 * (Rmax x 0 - Rmin y 0)) by (intros x y; destruct (maxmin x), (maxmin y); lra).
  unfold arrives, to_right, to_left, to_up, to_down. repeat apply Rplus_le_le_0_compat.
  - destruct i; [lra|apply P].
  - destruct (Nat.ltb (S i) nx); [apply P|lra].
  - destruct j; [lra|apply P].
  - destruct (Nat.ltb (S j) ny); [apply P|lra].
Qed.
Lemma q_in_border ny nx f j i : on_border ny nx j i -> q_in ny nx f j i = 0.
Proof.
  intros H. unfold q_in. unfold on_border in H. destruct (Nat.eqb_spec ny 1).
  - destruct (inner_spec nx i); [lia|reflexivity].
  - destruct (inner_spec ny j), (inner_spec nx i); cbn [andb]; try reflexivity. lia.
Qed.
Lemma q_in_arrives ny nx f j i : (j < ny)%nat -> (i < nx)%nat -> ~ on_border ny nx j i -> q_in ny nx f j i = arrives ny nx f j i.
Proof.
  intros Hj Hi H. destruct (not_border ny nx j i Hj Hi H) as [E1 E2]. unfold q_in, arrives. rewrite E1. destruct (inner_spec nx i) as [[I1 I2]|]; [|discriminate].
  apply Nat.ltb_lt in I2. rewrite I2. destruct i as [|i]; [lia|]. cbn [pred].
  destruct (Nat.eqb_spec ny 1) as [->|Hn].
  - assert (j = 0%nat) by lia. subst j. cbn [Nat.ltb Nat.leb]. unfold to_right, to_left. lra.
  - cbn [orb] in E2. rewrite E2. destruct (inner_spec ny j) as [[J1 J2]|]; [|discriminate]. apply Nat.ltb_lt in J2. rewrite J2. destruct j as [|j]; [lia|]. cbn [pred andb].
    unfold to_right, to_left, to_up, to_down. lra.
Qed.

(** ** Sums *)
Lemma rsum_ext n f g : (forall i, (i < n)%nat -> f i = g i) -> rsum n f = rsum n g.
Proof. induction n as [|n IH]; intros H; cbn; [reflexivity|]. rewrite IH by (intros; apply H; lia). now rewrite H by lia. Qed.
Lemma rsum_plus n f g : rsum n (fun i => f i + g i) = rsum n f + rsum n g.
Proof. induction n as [|n IH]; cbn; [lra|]. rewrite IH. lra. Qed.
Lemma rsum_scal n c f : rsum n (fun i => c * f i) = c * rsum n f.
Proof. induction n as [|n IH]; cbn; [lra|]. rewrite IH. lra. Qed.
Lemma rsum_nonneg n f : (forall i, (i < n)%nat -> 0 <= f i) -> 0 <= rsum n f.
Proof. induction n as [|n IH]; intros H; cbn; [lra|]. apply Rplus_le_le_0_compat; [apply IH; intros; apply H; lia|apply H; lia]. Qed.
Lemma rsum_zero n f : (forall i, (i < n)%nat -> f i = 0) -> rsum n f = 0.
Proof. induction n as [|n IH]; intros H; cbn; [lra|]. rewrite IH, H by (intros; try apply H; lia). lra. Qed.
Lemma rsum_swap m n f : rsum m (fun j => rsum n (fun i => f j i)) = rsum n (fun i => rsum m (fun j => f j i)).
Proof.
  induction m as [|m IH]; cbn; [symmetry; now apply rsum_zero|]. rewrite IH. rewrite <- rsum_plus. reflexivity.
Qed.
Lemma rsum_prev n f : f (pred n) = 0 -> rsum n (fun i => match i with O => 0 | S i' => f i' end) = rsum n f.
Proof.
  assert (G : forall k, rsum (S k) (fun i => match i with O => 0 | S i' => f i' end) = rsum k f).
  { induction k as [|k IH]; [cbn; lra|]. cbn [rsum] in *. rewrite IH. reflexivity. }
  destruct n as [|n]; [reflexivity|]. cbn [pred]. intros H. rewrite G. cbn. lra.
Qed.
Lemma rsum_next n f : f 0%nat = 0 -> rsum n (fun i => if Nat.ltb (S i) n then f (S i) else 0) = rsum n f.
Proof.
  intros H. destruct n as [|n]; [reflexivity|]. cbn [rsum]. rewrite Nat.ltb_irrefl.
  rewrite (rsum_ext n _ (fun i => f (S i))).
  2:{ intros i Hi. assert (L : (S i < S n)%nat) by lia. apply Nat.ltb_lt in L. now rewrite L. }
  clear -H. induction n as [|n IH]; cbn in *; lra.
Qed.
Lemma total_ext ny nx f g : (forall j i, (j < ny)%nat -> (i < nx)%nat -> f j i = g j i) -> total ny nx f = total ny nx g.
Proof. intros H. apply rsum_ext. intros j Hj. apply rsum_ext. intros i Hi. now apply H. Qed.
Lemma total_plus ny nx f g : total ny nx (fun j i => f j i + g j i) = total ny nx f + total ny nx g.
Proof. unfold total. rewrite <- rsum_plus. apply rsum_ext. intros. apply rsum_plus. Qed.
Lemma total_scal ny nx c f : total ny nx (fun j i => c * f j i) = c * total ny nx f.
Proof. unfold total. rewrite <- rsum_scal. apply rsum_ext. intros. apply rsum_scal. Qed.
Lemma total_nonneg ny nx f : (forall j i, (j < ny)%nat -> (i < nx)%nat -> 0 <= f j i) -> 0 <= total ny nx f.
Proof. intros H. apply rsum_nonneg. intros j Hj. apply rsum_nonneg. intros. now apply H. Qed.
Lemma total_zero ny nx f : (forall j i, (j < ny)%nat -> (i < nx)%nat -> f j i = 0) -> total ny nx f = 0.
Proof. intros H. apply rsum_zero. intros j Hj. apply rsum_zero. intros. now apply H. Qed.

(** ** One pass *)
Section Pass.
Variables (ny nx : nat) (ds dn zne : grid) (td : R) (zb : grid).
Let f := fluxes ny nx ds dn zne td zb.
Local Lemma fb d j i : on_border ny nx j i -> f d j i = 0.
Proof. apply fluxes_border. Qed.
Local Lemma to_border_zero j i : on_border ny nx j i -> to_right f j i = 0 /\ to_left f j i = 0 /\ to_up f j i = 0 /\ to_down f j i = 0.
Proof.
  intros H. unfold to_right, to_left, to_up, to_down. rewrite !(fun d => fb d j i H). unfold Rmax, Rmin.
  destruct (Rle_dec 0 0); repeat split; lra.
Qed.
Local Lemma row_zero j i : ny = 1%nat -> to_up f j i = 0 /\ to_down f j i = 0.
Proof.
  intros E. unfold to_up, to_down, f. rewrite E. rewrite !fluxes_row by tauto. unfold Rmax, Rmin. destruct (Rle_dec 0 0); split; lra.
Qed.
(** The sum of what arrives is the sum of what leaves. *)
Lemma arrives_total : total ny nx (arrives ny nx f) = total ny nx (q_out f).
Proof.
  unfold arrives. rewrite !total_plus.
  rewrite (total_ext ny nx (q_out f) (fun j i => to_right f j i + to_left f j i + (to_up f j i + to_down f j i)))
    by (intros; rewrite q_out_split; lra).
  rewrite !total_plus. f_equal; f_equal.
  - apply rsum_ext. intros j Hj. apply rsum_prev. apply to_border_zero. destruct (Nat.eq_dec nx 0) as [E|E].
    + left. rewrite E. reflexivity.
    + right. left. lia.
  - apply rsum_ext. intros j Hj. apply rsum_next. apply to_border_zero. now left.
  - unfold total. rewrite (rsum_swap ny nx), (rsum_swap ny nx). apply rsum_ext. intros i Hi. apply (rsum_prev ny (fun j => to_up f j i)).
    destruct (Nat.eq_dec ny 1) as [E|E]; [now apply row_zero|]. destruct (Nat.eq_dec ny 0) as [E0|E0].
    + assert (Hp : pred ny = 0%nat) by lia. rewrite Hp. apply to_border_zero. right. right. split; [exact E|now left].
    + apply to_border_zero. right. right. split; [exact E|]. right. lia.
  - unfold total. rewrite (rsum_swap ny nx), (rsum_swap ny nx). apply rsum_ext. intros i Hi. apply (rsum_next ny (fun j => to_down f j i)).
    destruct (Nat.eq_dec ny 1) as [E|E]; [now apply row_zero|]. apply to_border_zero. right. right. split; [exact E|now left].
Qed.

Definition border_b (j i : nat) : bool := (Nat.eqb i 0 || Nat.eqb (S i) nx || (negb (Nat.eqb ny 1) && (Nat.eqb j 0 || Nat.eqb (S j) ny)))%bool.
Lemma border_b_spec j i : Bool.reflect (on_border ny nx j i) (border_b j i).
Proof.
  unfold border_b, on_border. destruct (Nat.eqb_spec i 0); cbn [orb]; [constructor; now left|]. destruct (Nat.eqb_spec (S i) nx); cbn [orb]; [constructor; tauto|].
  destruct (Nat.eqb_spec ny 1); cbn [negb andb]; [constructor; tauto|]. destruct (Nat.eqb_spec j 0), (Nat.eqb_spec (S j) ny); cbn [orb]; constructor; tauto.
Qed.

(** Volume balance of one pass: what is sent to the border is lost. *)
Lemma relax_total : total ny nx (relax ny nx ds dn zne td zb) =
  total ny nx zb - 1 / 5 * total ny nx (fun j i => if border_b j i then arrives ny nx f j i else 0).
Proof.
  rewrite (total_ext ny nx (relax ny nx ds dn zne td zb)
    (fun j i => zb j i + (1 / 5 * arrives ny nx f j i + (- (1 / 5) * (if border_b j i then arrives ny nx f j i else 0) + - (1 / 5) * q_out f j i)))).
  - rewrite !total_plus, !total_scal, arrives_total. lra.
  - intros j i Hj Hi. unfold relax. fold f. destruct (border_b_spec j i) as [B|B].
    + rewrite (q_in_border ny nx f j i B). lra.
    + rewrite (q_in_arrives ny nx f j i Hj Hi B). lra.
Qed.
Lemma relax_total_le : total ny nx (relax ny nx ds dn zne td zb) <= total ny nx zb.
Proof.
  rewrite relax_total. assert (0 <= total ny nx (fun j i => if border_b j i then arrives ny nx f j i else 0)); [|lra].
  apply total_nonneg. intros j i _ _. destruct (border_b j i); [apply arrives_nonneg|lra].
Qed.
Lemma relax_border j i : on_border ny nx j i -> relax ny nx ds dn zne td zb j i = zb j i.
Proof.
  intros B. unfold relax. fold f. rewrite (q_in_border ny nx f j i B), q_out_split. destruct (to_border_zero j i B) as [-> [-> [-> ->]]]. lra.
Qed.

(** A cell that is not too steep and not below the non-erodible layer gives nothing. *)
Lemma gentle_flux j i d : 0 < ds j i -> zne j i <= zb j i -> grad_h (grad_down ny nx zb ds dn) j i <= td -> f d j i = 0.
Proof.
  intros Hd Hz Hg. unfold f, fluxes. set (gh := grad_h _ j i) in *.
  assert (N : 0 <= (zb j i - zne j i) / ds j i) by (unfold Rdiv; apply Rmult_le_pos; [lra|left; now apply Rinv_0_lt_compat]).
  unfold slope_diff. destruct (Rltb_spec ((zb j i - zne j i) / ds j i) (gh - td)); [lra|]. destruct (Rgtb_spec gh td); [lra|]. cbn [andb].
  unfold flux. destruct (Req_EM_T gh 0); [reflexivity|]. unfold Rdiv. ring.
Qed.
Lemma gentle_gives j i : 0 < ds j i -> zne j i <= zb j i -> grad_h (grad_down ny nx zb ds dn) j i <= td ->
  to_right f j i = 0 /\ to_left f j i = 0 /\ to_up f j i = 0 /\ to_down f j i = 0.
Proof.
  intros H1 H2 H3. unfold to_right, to_left, to_up, to_down. rewrite !(fun d => gentle_flux j i d H1 H2 H3). unfold Rmax, Rmin.
  destruct (Rle_dec 0 0); repeat split; lra.
Qed.
(** Two cells share an edge. *)
Definition adjacent (j i j' i' : nat) : Prop := (j = j' /\ (S i = i' \/ S i' = i)) \/ (i = i' /\ (S j = j' \/ S j' = j)).
Lemma relax_conserves : 0 <= td ->
  (forall j i j' i', (j < ny)%nat -> (i < nx)%nat -> ~ on_border ny nx j i -> on_border ny nx j' i' -> adjacent j i j' i' ->
     0 < ds j i /\ zne j i <= zb j i /\ slope ny zb ds dn j i <= td) ->
  total ny nx (relax ny nx ds dn zne td zb) = total ny nx zb.
Proof.
  intros Htd H. rewrite relax_total. rewrite (total_zero ny nx (fun j i => if border_b j i then arrives ny nx f j i else 0)); [lra|].
  intros j i Hj Hi. destruct (border_b_spec j i) as [B|B]; [|reflexivity].
  assert (G : forall j' i', (j' < ny)%nat -> (i' < nx)%nat -> adjacent j' i' j i -> to_right f j' i' = 0 /\ to_left f j' i' = 0 /\ to_up f j' i' = 0 /\ to_down f j' i' = 0).
  { intros j' i' Hj' Hi' A. destruct (border_b_spec j' i') as [B'|B']; [now apply to_border_zero|].
    destruct (H j' i' j i Hj' Hi' B' B A) as [H1 [H2 H3]]. apply gentle_gives; [exact H1|exact H2|]. now rewrite grad_h_slope. }
  unfold arrives.
  assert (E1 : match i with O => 0 | S i' => to_right f j i' end = 0) by (destruct i as [|i]; [reflexivity|]; apply G; [lia|lia|unfold adjacent; lia]).
  assert (E2 : (if Nat.ltb (S i) nx then to_left f j (S i) else 0) = 0) by (destruct (Nat.ltb_spec (S i) nx); [apply G; [lia|lia|unfold adjacent; lia]|reflexivity]).
  assert (E3 : match j with O => 0 | S j' => to_up f j' i end = 0) by (destruct j as [|j]; [reflexivity|]; apply G; [lia|lia|unfold adjacent; lia]).
  assert (E4 : (if Nat.ltb (S j) ny then to_down f (S j) i else 0) = 0) by (destruct (Nat.ltb_spec (S j) ny); [apply G; [lia|lia|unfold adjacent; lia]|reflexivity]).
  rewrite E1, E2, E3, E4. lra.
Qed.
End Pass.

(** ** The loop *)
Lemma iter_succ_r {A} (g : A -> A) m x : Nat.iter (S m) g x = Nat.iter m g (g x).
Proof. induction m as [|m IH]; [reflexivity|]. cbn in *. now rewrite IH. Qed.
Section Loop.
Variables (ny nx : nat) (ds dn zne : grid) (td : R).
Let step := relax ny nx ds dn zne td.
Let loop := avalanche_loop ny nx ds dn zne td.
Lemma loop_iter n : forall zb, exists k, (k <= n)%nat /\ loop n zb = Nat.iter k step zb /\
  (k = n \/ grid_max ny nx (grad_h (grad_down ny nx (loop n zb) ds dn)) < td) /\
  (forall m, (m < k)%nat -> td <= grid_max ny nx (grad_h (grad_down ny nx (Nat.iter m step zb) ds dn))).
Proof.
  unfold loop. induction n as [|n IH]; intros zb; cbn [avalanche_loop].
  - exists 0%nat. split; [lia|]. split; [reflexivity|]. split; [now left|lia].
  - destruct (Rltb_spec (grid_max ny nx (grad_h (grad_down ny nx zb ds dn))) td) as [H|H].
    + exists 0%nat. split; [lia|]. split; [reflexivity|]. split; [now right|lia].
    + fold step. destruct (IH (step zb)) as [k [K1 [K2 [K3 K4]]]]. exists (S k). split; [lia|].
      assert (It : forall m, Nat.iter (S m) step zb = Nat.iter m step (step zb)) by (intros m; apply iter_succ_r).
      split; [rewrite K2; symmetry; apply It|]. split; [destruct K3; [left; lia|now right]|].
      intros [|m] Hm; [cbn; lra|]. rewrite It. apply K4. lia.
Qed.
Lemma iter_inv (P : grid -> Prop) : (forall zb, P zb -> P (step zb)) -> forall n zb, P zb -> P (Nat.iter n step zb).
Proof. intros H n zb H0. induction n; cbn; auto. Qed.
Lemma loop_total n zb : total ny nx (loop n zb) <= total ny nx zb.
Proof.
  destruct (loop_iter n zb) as [k [_ [E _]]]. rewrite E. clear E. induction k as [|k IH]; cbn; [lra|].
  eapply Rle_trans; [apply relax_total_le|exact IH].
Qed.
Lemma loop_border n zb j i : on_border ny nx j i -> loop n zb j i = zb j i.
Proof.
  intros B. destruct (loop_iter n zb) as [k [_ [E _]]]. rewrite E. clear E. induction k as [|k IH]; cbn; [reflexivity|].
  unfold step at 1. rewrite relax_border by exact B. exact IH.
Qed.
Lemma loop_conserves n zb : 0 <= td ->
  (forall k, (k < n)%nat -> forall j i j' i', (j < ny)%nat -> (i < nx)%nat -> ~ on_border ny nx j i -> on_border ny nx j' i' -> adjacent j i j' i' ->
     0 < ds j i /\ zne j i <= Nat.iter k step zb j i /\ slope ny (Nat.iter k step zb) ds dn j i <= td) ->
  total ny nx (loop n zb) = total ny nx zb.
Proof.
  intros Htd H. destruct (loop_iter n zb) as [k [Hk [E _]]]. rewrite E. clear E. revert Hk. induction k as [|k IH]; intros Hk; cbn; [reflexivity|].
  etransitivity; [|apply IH; lia]. apply relax_conserves; [exact Htd|]. apply H. lia.
Qed.
End Loop.

(** ** avalanche *)
Lemma slope_nonneg ny zb ds dn j i : 0 <= slope ny zb ds dn j i.
Proof. apply sqrt_pos. Qed.
Lemma max_stable ny nx zb ds dn b : (0 < ny)%nat -> (0 < nx)%nat -> 0 <= b -> stable ny nx zb ds dn (fun s => s <= b) ->
  grid_max ny nx (grad_h (grad_down ny nx zb ds dn)) <= b.
Proof.
  intros Hy Hx Hb H. apply grid_max_le; [exact Hy|exact Hx|]. intros j i Hj Hi. destruct (border_dec ny nx j i) as [B|B].
  - now rewrite grad_h_border.
  - rewrite grad_h_slope by assumption. now apply H.
Qed.
Lemma stable_max ny nx zb ds dn b : grid_max ny nx (grad_h (grad_down ny nx zb ds dn)) < b -> stable ny nx zb ds dn (fun s => s < b).
Proof.
  intros H j i Hj Hi B. rewrite <- (grad_h_slope ny nx) by assumption. eapply Rle_lt_trans; [|exact H]. now apply (grid_max_ge ny nx).
Qed.

Lemma ava_stable process ny nx ds dn zne ts tdy n zb : (0 < ny)%nat -> (0 < nx)%nat -> 0 <= tan (deg2rad ts) ->
  stable ny nx zb ds dn (fun s => s <= tan (deg2rad ts)) -> avalanche process ny nx ds dn zne ts tdy n zb = zb.
Proof.
  intros Hy Hx Ht H. unfold avalanche. destruct process; [|reflexivity].
  pose proof (max_stable ny nx zb ds dn _ Hy Hx Ht H). destruct (Rgtb_spec (grid_max ny nx (grad_h (grad_down ny nx zb ds dn))) (tan (deg2rad ts))); [lra|reflexivity].
Qed.
Lemma ava_border process ny nx ds dn zne ts tdy n zb j i : on_border ny nx j i -> avalanche process ny nx ds dn zne ts tdy n zb j i = zb j i.
Proof.
  intros B. unfold avalanche. destruct process; [|reflexivity]. destruct (Rgtb _ _); [|reflexivity]. now apply loop_border.
Qed.
Lemma ava_total process ny nx ds dn zne ts tdy n zb : total ny nx (avalanche process ny nx ds dn zne ts tdy n zb) <= total ny nx zb.
Proof.
  unfold avalanche. destruct process; [|lra]. destruct (Rgtb _ _); [|lra]. apply loop_total.
Qed.
Lemma ava_stops process ny nx ds dn zne ts tdy n zb : let zb' := avalanche process ny nx ds dn zne ts tdy n zb in
  process = true -> (exists j i, (j < ny)%nat /\ (i < nx)%nat /\ ~ on_border ny nx j i /\ tan (deg2rad ts) < slope ny zb ds dn j i) ->
  exists k, (k <= n)%nat /\ zb' = Nat.iter k (relax ny nx ds dn zne (tan (deg2rad tdy))) zb /\
    (k = n \/ stable ny nx zb' ds dn (fun s => s < tan (deg2rad tdy))) /\
    (forall m, (m < k)%nat -> ~ stable ny nx (Nat.iter m (relax ny nx ds dn zne (tan (deg2rad tdy))) zb) ds dn (fun s => s < tan (deg2rad tdy)) \/ tan (deg2rad tdy) <= 0).
Proof.
  intros zb' -> [j [i [Hj [Hi [B Hs]]]]]. unfold avalanche in zb'.
  assert (M : tan (deg2rad ts) < grid_max ny nx (grad_h (grad_down ny nx zb ds dn))).
  { eapply Rlt_le_trans; [exact Hs|]. rewrite <- (grad_h_slope ny nx) by assumption. now apply (grid_max_ge ny nx). }
  destruct (Rgtb_spec (grid_max ny nx (grad_h (grad_down ny nx zb ds dn))) (tan (deg2rad ts))) as [_|]; [|contradiction].
  destruct (loop_iter ny nx ds dn zne (tan (deg2rad tdy)) n zb) as [k [K1 [K2 [K3 K4]]]]. exists k. split; [exact K1|]. split; [exact K2|].
  split; [destruct K3 as [K3|K3]; [now left|right; now apply stable_max]|].
  intros m Hm. destruct (Rle_lt_dec (tan (deg2rad tdy)) 0) as [T|T]; [now right|left]. intros S. specialize (K4 m Hm).
  assert (G : forall g, (0 < ny)%nat -> (0 < nx)%nat -> stable ny nx g ds dn (fun s => s < tan (deg2rad tdy)) ->
    grid_max ny nx (grad_h (grad_down ny nx g ds dn)) < tan (deg2rad tdy)).
  { intros g Gy Gx GS. unfold grid_max. set (d := grad_h _ 0%nat 0%nat). set (l := map _ _).
    assert (Gd : d < tan (deg2rad tdy)) by (unfold d; rewrite grad_h_border; [exact T|now left]).
    assert (Gl : forall x, In x l -> x < tan (deg2rad tdy)).
    { intros x Hx. unfold l in Hx. apply in_map_iff in Hx. destruct Hx as [[a b] [<- Hc]]. apply cells_in in Hc. cbn [fst snd].
      destruct (border_dec ny nx a b) as [B'|B']; [rewrite grad_h_border by exact B'; exact T|]. rewrite grad_h_slope by tauto. now apply GS. }
    clearbody d l. clear -Gd Gl. induction l as [|x l IH]; cbn; [exact Gd|]. apply Rmax_lub_lt; [apply Gl; now left|apply IH; intros y Hy; apply Gl; now right]. }
  assert (Gy : (0 < ny)%nat) by lia. assert (Gx : (0 < nx)%nat) by lia. specialize (G _ Gy Gx S). lra.
Qed.
Lemma ava_conserves process ny nx ds dn zne ts tdy n zb : 0 <= tan (deg2rad tdy) ->
  (forall k, (k < n)%nat -> forall j i j' i', (j < ny)%nat -> (i < nx)%nat -> ~ on_border ny nx j i -> on_border ny nx j' i' -> adjacent j i j' i' ->
     0 < ds j i /\ zne j i <= Nat.iter k (relax ny nx ds dn zne (tan (deg2rad tdy))) zb j i /\
     slope ny (Nat.iter k (relax ny nx ds dn zne (tan (deg2rad tdy))) zb) ds dn j i <= tan (deg2rad tdy)) ->
  total ny nx (avalanche process ny nx ds dn zne ts tdy n zb) = total ny nx zb.
Proof.
  intros H0 H. unfold avalanche. destruct process; [|reflexivity]. destruct (Rgtb _ _); [|reflexivity]. now apply loop_conserves.
Qed.
