(** Proofs about the filters of the separation surface. *)
From Coq Require Import Reals Lra Lia Psatz ZArith.
From Verif Require Import Base Shear_Model Shear_Spec Shear_Proofs Shear_Grid Shear_Interp Shear_Stress Shear_Fourier Shear_Bubble Filter_Model Filter_Spec.
From Coq Require Import List.
Import ListNotations.
Open Scope R_scope.

(** ** The discrete Fourier transform and back *)
Lemma orthogonal n c d : (c < n)%nat -> (d < n)%nat -> ctotal n (fun b => cis (2 * PI * (INR b * (INR c - INR d) / INR n))) = real (if Nat.eqb c d then INR n else 0).
Proof.
  intros Hc Hd. assert (Hn : 0 < INR n) by (apply lt_0_INR; lia). destruct (Nat.eqb_spec c d) as [->|N].
  - rewrite <- ctotal_one. apply ctotal_ext. intros b _. rewrite <- cis_0. f_equal. field. lra.
  - change (real 0) with (0, 0). destruct (lt_dec d c) as [L|L].
    + rewrite <- (proj1 (roots n (c - d) ltac:(lia))). apply ctotal_ext. intros b _. f_equal. rewrite minus_INR by lia. field. lra.
    + rewrite <- (proj2 (roots n (d - c) ltac:(lia))). apply ctotal_ext. intros b _. f_equal. rewrite minus_INR by lia. field. lra.
Qed.
Lemma ctotal_swap n k (f : nat -> nat -> complex) : ctotal n (fun i => ctotal k (fun j => f i j)) = ctotal k (fun j => ctotal n (fun i => f i j)).
Proof.
  induction n as [|n IH]; cbn.
  - symmetry. apply ctotal_zero. reflexivity.
  - rewrite IH, <- ctotal_add. reflexivity.
Qed.
Lemma ctotal_at n c (f : nat -> complex) : (c < n)%nat -> (forall i, (i < n)%nat -> i <> c -> f i = (0, 0)) -> ctotal n f = f c.
Proof.
  induction n as [|n IH]; intros Hc Hf; [lia|]. cbn. destruct (Nat.eq_dec c n) as [->|N].
  - rewrite ctotal_zero by (intros i Hi; apply Hf; lia). cring.
  - rewrite IH by (try lia; intros i Hi Hn; apply Hf; lia). rewrite (Hf n) by lia. cring.
Qed.
Lemma filtered_scaled : forall n dx xmax k v l, (l < n)%nat -> filtered n dx xmax k v l = damping dx xmax k * v l.
Proof.
  intros n dx xmax k v l Hl. assert (Hn : 0 < INR n) by (apply lt_0_INR; lia). unfold filtered, ifft_real. set (d := damping dx xmax k).
  assert (E : ctotal n (fun b => cmul (cmul (fft n v b) (real d)) (cis (2 * PI * (INR b * INR l / INR n)))) = real (INR n * d * v l)).
  { transitivity (ctotal n (fun b => ctotal n (fun c => cmul (real (d * v c)) (cis (2 * PI * (INR b * (INR l - INR c) / INR n)))))).
    - apply ctotal_ext. intros b _. unfold fft. transitivity (cmul (cmul (real d) (cis (2 * PI * (INR b * INR l / INR n)))) (ctotal n (fun c => cmul (real (v c)) (cis (- (2 * PI * (INR b * INR c / INR n))))))); [cring|].
      rewrite <- ctotal_mul. apply ctotal_ext. intros c _.
      replace (2 * PI * (INR b * (INR l - INR c) / INR n)) with (2 * PI * (INR b * INR l / INR n) + - (2 * PI * (INR b * INR c / INR n))) by (field; lra).
      rewrite cis_plus. cring.
    - rewrite ctotal_swap. transitivity (ctotal n (fun c => cmul (real (d * v c)) (real (if Nat.eqb l c then INR n else 0)))).
      + apply ctotal_ext. intros c Hc. rewrite ctotal_mul, orthogonal by assumption. reflexivity.
      + rewrite (ctotal_at n l); [rewrite Nat.eqb_refl; cring | exact Hl|]. intros i Hi Hx. destruct (Nat.eqb_spec l i); [congruence|]. cring. }
  rewrite E. cbn. field. lra.
Qed.
Lemma damping_0 dx xmax : damping dx xmax 0 = 1.
Proof. unfold damping. rewrite <- exp_0. f_equal. cbn. lra. Qed.
Lemma damping_pos dx xmax k : 0 < damping dx xmax k.
Proof. apply exp_pos. Qed.
Lemma damping_le dx xmax k : damping dx xmax k <= 1.
Proof.
  unfold damping. rewrite <- exp_0. set (x := 2 * PI / xmax * INR k * dx). assert (- x ^ 2 / (2 * (15 / 10) ^ 2) <= 0) by (cbn; nra).
  destruct H as [H|H]; [left; apply exp_increasing; exact H | right; rewrite H; reflexivity].
Qed.
Lemma damping_lt dx xmax k : 0 < dx -> 0 < xmax -> (0 < k)%nat -> damping dx xmax k < 1.
Proof.
  intros Hd Hx Hk. unfold damping. rewrite <- exp_0. apply exp_increasing. assert (P := PI_RGT_0). assert (0 < INR k) by (apply lt_0_INR; exact Hk).
  assert (0 < 2 * PI / xmax * INR k * dx). { apply Rmult_lt_0_compat; [apply Rmult_lt_0_compat; [|assumption]|assumption]. apply Rdiv_lt_0_compat; lra. }
  set (x := 2 * PI / xmax * INR k * dx) in *. cbn. nra.
Qed.

(** ** Without iterations: every row for itself *)
Section Rows.
Variables (m n : nat) (dx c mu xmax : R) (z : field).
Lemma set_row_same f j v : set_row f j v j = v.
Proof. unfold set_row. rewrite Nat.eqb_refl. reflexivity. Qed.
Lemma set_row_other f j v r : r <> j -> set_row f j v r = f r.
Proof. intros H. unfold set_row. apply Nat.eqb_neq in H. rewrite H. reflexivity. Qed.
Lemma one_bubble_plain k j i s : one_bubble n dx c xmax z 0 k j i s = Ok (set_row (fst s) j (fst (add_bubble n dx c (z j) (fst s j, snd s j) i)),
  set_row (snd s) j (snd (add_bubble n dx c (z j) (fst s j, snd s j) i))).
Proof. unfold one_bubble. unfold add_bubble at 1 2. cbn [fst snd Nat.ltb Nat.leb andb Nat.iter]. unfold raise_row. rewrite set_row_same. reflexivity. Qed.
Definition of_row (r : nat) (l : list (nat * nat)) : list nat := map snd (filter (fun p => Nat.eqb (fst p) r) l).
Lemma walk_plain l : forall k s s', walk n dx c xmax z 0 k l s = Ok s' -> forall r, (fst s' r, snd s' r) = fold_left (add_bubble n dx c (z r)) (of_row r l) (fst s r, snd s r).
Proof.
  induction l as [|[j i] l IH]; intros k s s' H r; cbn [walk] in H.
  - injection H as <-. reflexivity.
  - rewrite one_bubble_plain in H. cbn [bind] in H. rewrite (IH _ _ _ H r). cbn [fst snd]. unfold of_row at 2. cbn [filter fst map snd].
    destruct (Nat.eqb_spec j r) as [->|N]; [|rewrite !set_row_other by congruence; reflexivity].
    rewrite !set_row_same. cbn [map snd fold_left]. fold (of_row r l). rewrite <- surjective_pairing. reflexivity.
Qed.
Lemma walk_plain_ok l : forall k s, exists s', walk n dx c xmax z 0 k l s = Ok s'.
Proof. induction l as [|[j i] l IH]; intros k s; cbn [walk]; [eauto|]. rewrite one_bubble_plain. cbn [bind]. apply IH. Qed.
Lemma of_row_app r a b : of_row r (a ++ b) = of_row r a ++ of_row r b.
Proof. unfold of_row. rewrite filter_app, map_app. reflexivity. Qed.
Lemma of_row_map r j l : of_row r (map (fun i => (j, i)) l) = if Nat.eqb j r then l else [].
Proof.
  unfold of_row. induction l as [|i l IH]; cbn; [destruct (Nat.eqb j r); reflexivity|]. destruct (Nat.eqb j r); cbn; [rewrite IH; reflexivity | exact IH].
Qed.
Lemma of_row_places r : (r < m)%nat -> of_row r (places m n dx mu z) = bubbles n dx mu (z r).
Proof.
  intros H. unfold places.
  assert (G : forall a l, of_row r (flat_map (fun j => map (fun i => (j, i)) (bubbles n dx mu (z j))) (seq a l)) = if (Nat.leb a r && Nat.ltb r (a + l))%bool then bubbles n dx mu (z r) else []).
  { intros a l. revert a. induction l as [|l IH]; intros a; cbn [seq flat_map].
    - destruct (Nat.leb_spec a r), (Nat.ltb_spec r (a + 0)); cbn; reflexivity || lia.
    - rewrite of_row_app, of_row_map, IH. destruct (Nat.eqb_spec a r) as [->|N].
      + destruct (Nat.leb_spec (S r) r); [lia|]. destruct (Nat.leb_spec r r); [|lia]. destruct (Nat.ltb_spec r (r + S l)); [|lia]. cbn. apply app_nil_r.
      + destruct (Nat.leb_spec (S a) r), (Nat.leb_spec a r), (Nat.ltb_spec r (S a + l)), (Nat.ltb_spec r (a + S l)); cbn; reflexivity || lia. }
  rewrite G. destruct (Nat.ltb_spec r (0 + m)); [reflexivity | lia].
Qed.
Lemma surface_plain : exists s, separation_surface m n dx c mu xmax z 0 false = Ok s /\ forall r l, (r < m)%nat -> s r l = separation n dx c mu (z r) l.
Proof.
  unfold separation_surface. destruct (walk_plain_ok (places m n dx mu z) 0 (fun _ _ => 0, fun _ _ => 0)) as [s Hs]. rewrite Hs. cbn [bind]. eexists. split; [reflexivity|].
  intros r l Hr. pose proof (walk_plain _ _ _ _ Hs r) as E. rewrite of_row_places in E by exact Hr. cbn [fst snd] in E. unfold separation. rewrite <- E. reflexivity.
Qed.

(** ** With filters *)
Lemma surface_above it yf s : separation_surface m n dx c mu xmax z it yf = Ok s -> forall r l, z r l <= s r l.
Proof.
  unfold separation_surface. destruct (walk _ _ _ _ _ _ _ _ _) as [w|e]; cbn [bind]; [|discriminate]. intros H. injection H as <-. intros r l. destruct (Rlt_dec _ _); lra.
Qed.
Lemma no_places : (forall r, (r < m)%nat -> bubbles n dx mu (z r) = []) -> places m n dx mu z = [].
Proof.
  intros H. unfold places. assert (G : forall l, (forall r, In r l -> (r < m)%nat) -> flat_map (fun j => map (fun i => (j, i)) (bubbles n dx mu (z j))) l = []).
  { induction l as [|j l IH]; intros Hl; [reflexivity|]. cbn. rewrite (H j) by (apply Hl; left; reflexivity). apply IH. intros r Hr. apply Hl. right. exact Hr. }
  apply G. intros r Hr. apply in_seq in Hr. lia.
Qed.
Lemma smooth_zero r l : smooth m (fun _ _ => 0) r l = 0.
Proof. unfold smooth. assert (0 < side_weight) by apply exp_pos. field. lra. Qed.
Lemma surface_gentle it yf : (3 <= n)%nat -> (forall r, (r < m)%nat -> gentle n dx mu (z r)) ->
  exists s, separation_surface m n dx c mu xmax z it yf = Ok s /\ forall r l, 0 <= z r l -> s r l = z r l.
Proof.
  intros Hn G. unfold separation_surface. rewrite no_places by (intros r Hr; apply gentle_no_bubbles; [exact Hn | apply G; exact Hr]). cbn [walk bind snd].
  eexists. split; [reflexivity|]. intros r l Hz. destruct yf; cbn beta; [rewrite smooth_zero|]; destruct (Rlt_dec 0 (z r l)); lra.
Qed.
(** *** Exceptions *)
Lemma places_rows p : In p (places m n dx mu z) -> (fst p < m)%nat.
Proof.
  intros H. unfold places in H. apply in_flat_map in H as (j & Hj & H). apply in_map_iff in H as (i & <- & _). apply in_seq in Hj. cbn. lia.
Qed.
Lemma walk_ok it l : (forall p, In p l -> (fst p < n)%nat) -> forall k s, exists s', walk n dx c xmax z it k l s = Ok s'.
Proof.
  induction l as [|[j i] l IH]; intros H k s; cbn [walk]; [eauto|]. unfold one_bubble. destruct (add_bubble _ _ _ _ _ _) as [row x].
  assert (L : (j < n)%nat) by (apply (H (j, i)); left; reflexivity). apply Nat.leb_gt in L. rewrite L, Bool.andb_false_r. cbn [bind]. apply IH. intros p Hp. apply H. right. exact Hp.
Qed.
Lemma surface_ok it yf : (m <= n)%nat -> exists s, separation_surface m n dx c mu xmax z it yf = Ok s.
Proof.
  intros H. unfold separation_surface. destruct (walk_ok it (places m n dx mu z) (fun p Hp => Nat.lt_le_trans _ _ _ (places_rows p Hp) H) 0 (fun _ _ => 0, fun _ _ => 0)) as [s Hs].
  rewrite Hs. cbn [bind]. eauto.
Qed.
Lemma walk_raises it l : (0 < it)%nat -> (exists p, In p l /\ (n <= fst p)%nat) -> forall k s, walk n dx c xmax z it k l s = Raise IndexError.
Proof.
  intros Hit. induction l as [|[j i] l IH]; intros (p & Hp & Hn) k s; [destruct Hp|]. cbn [walk]. unfold one_bubble. destruct (add_bubble _ _ _ _ _ _) as [row x].
  apply Nat.ltb_lt in Hit. rewrite Hit. cbn [andb]. destruct (Nat.leb_spec n j) as [L|L]; [reflexivity|]. cbn [bind]. apply IH. destruct Hp as [<-|Hp]; [cbn in Hn; lia|]. exists p. auto.
Qed.
Lemma surface_raises it yf r i : (0 < it)%nat -> (n <= r < m)%nat -> In i (bubbles n dx mu (z r)) -> separation_surface m n dx c mu xmax z it yf = Raise IndexError.
Proof.
  intros Hit Hr Hi. unfold separation_surface. rewrite (walk_raises it _ Hit); [reflexivity|]. exists (r, i). split; [|cbn; lia]. unfold places. apply in_flat_map. exists r.
  split; [apply in_seq; lia | apply in_map; exact Hi].
Qed.
Lemma Rle_max_compat3 a b b' d d' : b <= b' -> d <= d' -> Rmax (Rmax a b) d <= Rmax (Rmax a b') d'.
Proof. intros H K. repeat apply Rmax_lub; eauto using Rle_trans, Rmax_l, Rmax_r. Qed.
(** *** Iterations only raise the surface *)
Definition good (s : field * field) : Prop := forall r l, fst s r l <= snd s r l /\ 0 <= snd s r l.
Definition lower (s t : field * field) : Prop := forall r l, snd s r l <= snd t r l.
Lemma raise_good j s new : good s -> (forall r l, r <> j -> new r l <= snd s r l) -> good (new, raise_row z j (snd s) new) /\ lower s (new, raise_row z j (snd s) new).
Proof.
  intros G N. split; intros r l; cbn [fst snd]; unfold raise_row, set_row; destruct (Nat.eqb_spec r j) as [->|E].
  - split; [apply Rmax_r|]. apply Rle_trans with (snd s j l); [apply G|]. eapply Rle_trans; [apply Rmax_r|apply Rmax_l].
  - split; [apply N; exact E | apply G].
  - eapply Rle_trans; [apply Rmax_r|apply Rmax_l].
  - apply Rle_refl.
Qed.
Lemma refine_good k j i s : good s -> good (refine n dx c xmax z k j i s) /\ lower s (refine n dx c xmax z k j i s).
Proof.
  intros G. unfold refine. apply raise_good; [exact G|]. intros r l N. rewrite set_row_other by exact N. apply G.
Qed.
Lemma iter_good k j i it s : good s -> good (Nat.iter it (refine n dx c xmax z k j i) s) /\ lower s (Nat.iter it (refine n dx c xmax z k j i) s).
Proof.
  intros G. induction it as [|it [A B]]; cbn; [split; [exact G | intros r l; apply Rle_refl]|]. destruct (refine_good k j i _ A) as [C D]. split; [exact C|].
  intros r l. eapply Rle_trans; [apply B | apply D].
Qed.
(** The streamline of a bubble, elsewhere another value. *)
Definition streamline (j i l : nat) (other : R) : R :=
  let d := (z j i - back3 n (z j) i) / (3 * dx) in let ls := reattach c (brink n dx (z j) i) d in
  if (Nat.leb i l && Nat.ltb l (i_max n dx i ls))%bool then cubic (brink n dx (z j) i) d ls (z j i) (INR l * dx - INR i * dx) else other.
Lemma plain_value j i s s' k : good s -> one_bubble n dx c xmax z 0 k j i s = Ok s' -> good s' /\
  forall r l, snd s' r l = if Nat.eqb r j then Rmax (Rmax (z j l) (snd s j l)) (streamline j i l (snd s j l)) else snd s r l.
Proof.
  intros G H. split.
  - unfold one_bubble, add_bubble in H. cbn [fst snd Nat.ltb Nat.leb andb Nat.iter] in H. injection H as <-. apply raise_good; [exact G|]. intros r l N. rewrite set_row_other by exact N. apply G.
  - rewrite one_bubble_plain in H. injection H as <-. cbn [fst snd]. intros r l. unfold set_row, add_bubble. cbn [fst snd]. destruct (Nat.eqb r j); [|reflexivity].
    unfold streamline. cbv zeta. destruct (_ && _)%bool; [reflexivity|]. rewrite !(Rmax_left (Rmax (z j l) (snd s j l))); [reflexivity|apply Rmax_r|].
    eapply Rle_trans; [apply G|apply Rmax_r].
Qed.
Lemma bubble_split it k j i s s' : one_bubble n dx c xmax z it k j i s = Ok s' -> exists s1, one_bubble n dx c xmax z 0 k j i s = Ok s1 /\ s' = Nat.iter it (refine n dx c xmax z k j i) s1.
Proof.
  unfold one_bubble. destruct (add_bubble _ _ _ _ _ _) as [row x]. cbn [Nat.ltb Nat.leb andb Nat.iter]. destruct (_ && _)%bool; [discriminate|]. intros H. injection H as <-. eauto.
Qed.
Lemma walk_lower it l : forall k s t s' t', good s -> good t -> lower s t -> walk n dx c xmax z 0 k l s = Ok s' -> walk n dx c xmax z it k l t = Ok t' -> lower s' t'.
Proof.
  induction l as [|[j i] l IH]; intros k s t s' t' Gs Gt L Hs Ht; cbn [walk] in Hs, Ht; [injection Hs as <-; injection Ht as <-; exact L|].
  destruct (one_bubble n dx c xmax z 0 k j i s) as [s1|] eqn:Es; cbn [bind] in Hs; [|discriminate]. destruct (one_bubble n dx c xmax z it k j i t) as [t2|] eqn:Et; cbn [bind] in Ht; [|discriminate].
  apply bubble_split in Et as (t1 & Et & ->). destruct (plain_value _ _ _ _ _ Gs Es) as [Gs1 Vs]. destruct (plain_value _ _ _ _ _ Gt Et) as [Gt1 Vt].
  destruct (iter_good k j i it t1 Gt1) as [Gt2 L2]. refine (IH _ _ _ _ _ Gs1 Gt2 _ Hs Ht). intros r l0. eapply Rle_trans; [|apply L2]. rewrite Vs, Vt.
  destruct (Nat.eqb r j); [|apply L]. apply Rle_max_compat3; [apply L|]. unfold streamline. cbv zeta. destruct (_ && _)%bool; [apply Rle_refl|apply L].
Qed.
End Rows.
