From Verif Require Import Base Num Utils_Model Utils_Spec Utils_Proofs Utils_Cases Bed_Model Bed_Spec.
Open Scope Q_scope.

(** ** Vectors *)
Lemma vsub_length a b : length a = length b -> length (vsub a b) = length a.
Proof. apply map2_length. Qed.
Lemma vadd_length a b : length a = length b -> length (vadd a b) = length a.
Proof. apply map2_length. Qed.
Lemma vscale_length c a : length (vscale c a) = length a.
Proof. apply map_length. Qed.
Lemma qsum_vsub a : forall b, length a = length b -> qsum (vsub a b) == qsum a - qsum b.
Proof. unfold vsub, qsum. induction a as [|x a IH]; intros [|y b] H; cbn in *; try discriminate; [ring|]. rewrite IH by lia. ring. Qed.
Lemma qsum_vadd a : forall b, length a = length b -> qsum (vadd a b) == qsum a + qsum b.
Proof. unfold vadd, qsum. induction a as [|x a IH]; intros [|y b] H; cbn in *; try discriminate; [ring|]. rewrite IH by lia. ring. Qed.
Lemma qsum_vscale c a : qsum (vscale c a) == c * qsum a.
Proof. unfold vscale, qsum. induction a as [|x a IH]; cbn; [ring|]. rewrite IH. ring. Qed.
Lemma nth_vsub a : forall b k, length a = length b -> nth k (vsub a b) 0 == nth k a 0 - nth k b 0.
Proof.
  unfold vsub. induction a as [|x a IH]; intros [|y b] k H; cbn in *; try discriminate; [destruct k; cbn; ring|].
  destruct k as [|k]; [reflexivity|]. apply IH. lia.
Qed.
Lemma nth_vadd a : forall b k, length a = length b -> nth k (vadd a b) 0 == nth k a 0 + nth k b 0.
Proof.
  unfold vadd. induction a as [|x a IH]; intros [|y b] k H; cbn in *; try discriminate; [destruct k; cbn; ring|].
  destruct k as [|k]; [reflexivity|]. apply IH. lia.
Qed.
Lemma nth_vscale c a : forall k, nth k (vscale c a) 0 == c * nth k a 0.
Proof.
  unfold vscale. induction a as [|x a IH]; intros k; [destruct k; cbn; ring|]. destruct k as [|k]; cbn [map nth]; [reflexivity|]. apply IH.
Qed.
Lemma nonneg_nth l : all_nonneg l <-> forall k, 0 <= nth k l 0.
Proof.
  split; intros H.
  - intros k. destruct (Nat.lt_ge_cases k (length l)) as [Hk|Hk]; [apply H; now apply nth_In|]. rewrite nth_overflow by exact Hk. lra.
  - intros x Hx. destruct (In_nth l x 0 Hx) as [k [_ <-]]. apply H.
Qed.
Lemma normalize_nonneg l : all_nonneg l -> 0 < qsum l -> all_nonneg (normalize 0 l).
Proof. intros H1 H2. exact (proj1 (normalize_distribution 0 l H1 H2)). Qed.
Lemma nth_normalize l k : 0 < qsum l -> nth k (normalize 0 l) 0 == nth k l 0 / qsum l.
Proof.
  intros H. rewrite normalize_nonzero by lra. destruct (Nat.lt_ge_cases k (length l)) as [Hk|Hk].
  - rewrite (nth_map (fun a => a / qsum l)) with (d := 0) by exact Hk. reflexivity.
  - rewrite !nth_overflow by (rewrite ?map_length; exact Hk). field. lra.
Qed.
Lemma qsum_normalize l : 0 < qsum l -> qsum (normalize 0 l) == 1.
Proof. intros H. apply normalize_sum. lra. Qed.
(** The part of a layer that remains when a mass c, at most that of the layer, is taken out. *)
Lemma remaining l c k : all_nonneg l -> 0 < qsum l -> c <= qsum l -> 0 <= nth k l 0 - c * nth k (normalize 0 l) 0.
Proof.
  intros Hl Hs Hc. rewrite nth_normalize by exact Hs. pose proof (proj1 (nonneg_nth l) Hl k) as Hk.
  assert (E : nth k l 0 - c * (nth k l 0 / qsum l) == nth k l 0 * (qsum l - c) / qsum l) by (field; lra). rewrite E.
  apply qdiv_nonneg; [|exact Hs]. apply Qmult_le_0_compat; lra.
Qed.

(** ** Moving mass between layers *)
Lemma same_length a b : same a b -> length a = length b.
Proof. unfold same. induction 1; cbn; congruence. Qed.
Definition top_less (x : Q) (l : list Q) : list Q := match l with [] => [] | t :: ts => (t - x) :: ts end.
Lemma same_cons x y a b : x == y -> same a b -> same (x :: a) (y :: b).
Proof. unfold same. now constructor. Qed.
Lemma same_top_less x a b : same a b -> same (top_less x a) (top_less x b).
Proof. unfold same. intros H. destruct H; cbn; constructor; [now rewrite H|assumption]. Qed.

Lemma arrange_erosion_nonempty dm d m : m <> [] -> arrange_erosion dm d m <> [].
Proof. destruct d as [|d0 [|d1 d]], m as [|m0 [|m1 m]]; cbn; congruence. Qed.
Lemma on_last_cons f l r : r <> [] -> on_last f (l :: r) = l :: on_last f r.
Proof. destruct r; [contradiction|reflexivity]. Qed.

Definition erode_layers (dm : Q) (base : layer) (d m : bed) : bed := on_last (fun l => vsub l (vscale dm base)) (arrange_erosion dm d m).
Lemma erode_one dm base d0 m0 : erode_layers dm base [d0] [m0] = [vsub m0 (vscale dm base)].
Proof. reflexivity. Qed.
Lemma erode_cons dm base d0 d1 d m0 m1 m : erode_layers dm base (d0 :: d1 :: d) (m0 :: m1 :: m) =
  vsub m0 (vscale dm d1) :: erode_layers dm base (d1 :: d) (vadd m1 (vscale dm d1) :: m).
Proof.
  unfold erode_layers. cbn [arrange_erosion]. apply on_last_cons.
  pose proof (arrange_erosion_nonempty dm (d1 :: d) (vadd m1 (vscale dm d1) :: m)) as H. cbn [arrange_erosion] in H. apply H. discriminate.
Qed.

Section Erosion.
  Context (nf : nat) (dm : Q) (base : layer) (Hb : length base = nf) (Hb1 : qsum base == 1).
  Lemma erode_masses : forall ds ms m0 d0, length ds = length ms -> length m0 = nf -> shaped nf ms -> shaped nf ds ->
    (forall d, In d ds -> qsum d == 1) ->
    same (layer_masses (erode_layers dm base (d0 :: ds) (m0 :: ms))) (top_less dm (layer_masses (m0 :: ms))).
  Proof.
    unfold layer_masses. induction ds as [|d1 ds IH]; intros [|m1 ms] m0 d0 L S0 Sm Sd H1; try discriminate L.
    - rewrite erode_one. cbn [map top_less]. apply same_cons; [|constructor].
      rewrite qsum_vsub by (rewrite vscale_length; lia). rewrite qsum_vscale, Hb1. ring.
    - assert (L1 : length m1 = nf) by (apply Sm; now left). assert (L2 : length d1 = nf) by (apply Sd; now left).
      assert (E1 : qsum d1 == 1) by (apply H1; now left).
      rewrite erode_cons. cbn [map top_less]. apply same_cons.
      + rewrite qsum_vsub by (rewrite vscale_length; lia). rewrite qsum_vscale, E1. ring.
      + eapply same_trans.
        * apply IH; [cbn in L; lia|rewrite vadd_length by (rewrite vscale_length; lia); exact L1| | |].
          -- intros l Hl. apply Sm. now right.
          -- intros l Hl. apply Sd. now right.
          -- intros l Hl. apply H1. now right.
        * cbn [map top_less]. apply same_cons; [|apply same_refl].
          rewrite qsum_vadd by (rewrite vscale_length; lia). rewrite qsum_vscale, E1. ring.
  Qed.
  Lemma erode_shape : forall ds ms m0 d0, length ds = length ms -> length m0 = nf -> shaped nf ms -> shaped nf ds ->
    shaped nf (erode_layers dm base (d0 :: ds) (m0 :: ms)).
  Proof.
    induction ds as [|d1 ds IH]; intros [|m1 ms] m0 d0 L S0 Sm Sd; try discriminate L.
    - rewrite erode_one. intros l [<-|[]]. rewrite vsub_length by (rewrite vscale_length; lia). exact S0.
    - assert (L1 : length m1 = nf) by (apply Sm; now left). assert (L2 : length d1 = nf) by (apply Sd; now left).
      rewrite erode_cons. intros l [<-|Hl].
      + rewrite vsub_length by (rewrite vscale_length; lia). exact S0.
      + revert l Hl. apply IH; [cbn in L; lia|rewrite vadd_length by (rewrite vscale_length; lia); exact L1| |].
        * intros l Hl. apply Sm. now right.
        * intros l Hl. apply Sd. now right.
  Qed.
  Lemma erode_fraction k : forall ds ms m0 d0, length ds = length ms -> length m0 = nf -> shaped nf ms -> shaped nf ds ->
    fraction_mass k (erode_layers dm base (d0 :: ds) (m0 :: ms)) == fraction_mass k (m0 :: ms) - dm * nth k base 0.
  Proof.
    unfold fraction_mass, column. induction ds as [|d1 ds IH]; intros [|m1 ms] m0 d0 L S0 Sm Sd; try discriminate L.
    - rewrite erode_one. cbn [map]. unfold qsum. cbn [fold_right]. rewrite nth_vsub by (rewrite vscale_length; lia). rewrite nth_vscale. ring.
    - assert (L1 : length m1 = nf) by (apply Sm; now left). assert (L2 : length d1 = nf) by (apply Sd; now left).
      rewrite erode_cons. cbn [map]. unfold qsum at 1. cbn [fold_right]. fold (qsum (map (fun row => nth k row 0) (erode_layers dm base (d1 :: ds) (vadd m1 (vscale dm d1) :: ms)))).
      rewrite IH; [|cbn in L; lia|rewrite vadd_length by (rewrite vscale_length; lia); exact L1|intros l Hl; apply Sm; now right|intros l Hl; apply Sd; now right].
      cbn [map]. unfold qsum. cbn [fold_right].
      rewrite nth_vsub by (rewrite vscale_length; lia). rewrite nth_vadd by (rewrite vscale_length; lia). rewrite !nth_vscale. ring.
  Qed.
  Lemma erode_nonneg : dm <= 0 -> all_nonneg base -> forall ms m0 d0, length m0 = nf -> shaped nf ms -> all_nonneg m0 -> nonneg_bed ms ->
    (forall l, In l ms -> 0 < qsum l /\ - dm <= qsum l) ->
    nonneg_bed (erode_layers dm base (d0 :: map (normalize 0) ms) (m0 :: ms)).
  Proof.
    intros Hdm Hbn. induction ms as [|m1 ms IH]; intros m0 d0 S0 Sm N0 Nm Hs.
    - cbn [map]. rewrite erode_one. intros l [<-|[]]. apply nonneg_nth. intros k.
      rewrite nth_vsub by (rewrite vscale_length; lia). rewrite nth_vscale.
      pose proof (proj1 (nonneg_nth _) N0 k). pose proof (proj1 (nonneg_nth _) Hbn k).
      assert (0 <= - dm * nth k base 0) by (apply Qmult_le_0_compat; lra). lra.
    - assert (L1 : length m1 = nf) by (apply Sm; now left). assert (N1 : all_nonneg m1) by (apply Nm; now left).
      destruct (Hs m1 (or_introl eq_refl)) as [P1 P2]. cbn [map]. rewrite erode_cons. intros l [<-|Hl].
      + apply nonneg_nth. intros k. rewrite nth_vsub by (rewrite vscale_length, normalize_length; lia). rewrite nth_vscale.
        pose proof (proj1 (nonneg_nth _) N0 k). pose proof (proj1 (nonneg_nth _) (normalize_nonneg m1 N1 P1) k).
        assert (0 <= - dm * nth k (normalize 0 m1) 0) by (apply Qmult_le_0_compat; lra). lra.
      + revert l Hl. apply IH.
        * rewrite vadd_length by (rewrite vscale_length, normalize_length; lia). exact L1.
        * intros l Hl. apply Sm. now right.
        * apply nonneg_nth. intros k. rewrite nth_vadd by (rewrite vscale_length, normalize_length; lia). rewrite nth_vscale.
          pose proof (remaining m1 (- dm) k N1 P1 P2). lra.
        * intros l Hl. apply Nm. now right.
        * intros l Hl. apply Hs. now right.
  Qed.
End Erosion.

Lemma dep_one dm d0 m0 : arrange_deposition dm [d0] [m0] = [vsub m0 (vscale dm d0)].
Proof. reflexivity. Qed.
Lemma dep_cons dm d0 d1 d m0 m1 m : arrange_deposition dm (d0 :: d1 :: d) (m0 :: m1 :: m) =
  vsub m0 (vscale dm d0) :: arrange_deposition dm (d1 :: d) (vadd m1 (vscale dm d0) :: m).
Proof. reflexivity. Qed.
Section Deposition.
  Context (nf : nat) (dm : Q).
  Lemma dep_masses : forall ds ms m0 d0, length ds = length ms -> length m0 = nf -> length d0 = nf -> shaped nf ms -> shaped nf ds ->
    qsum d0 == 1 -> (forall d, In d ds -> qsum d == 1) ->
    same (layer_masses (arrange_deposition dm (d0 :: ds) (m0 :: ms))) (top_less dm (layer_masses (m0 :: ms))).
  Proof.
    unfold layer_masses. induction ds as [|d1 ds IH]; intros [|m1 ms] m0 d0 L S0 T0 Sm Sd E0 H1; try discriminate L.
    - rewrite dep_one. cbn [map top_less]. apply same_cons; [|constructor].
      rewrite qsum_vsub by (rewrite vscale_length; lia). rewrite qsum_vscale, E0. ring.
    - assert (L1 : length m1 = nf) by (apply Sm; now left). assert (L2 : length d1 = nf) by (apply Sd; now left).
      assert (E1 : qsum d1 == 1) by (apply H1; now left).
      rewrite dep_cons. cbn [map top_less]. apply same_cons.
      + rewrite qsum_vsub by (rewrite vscale_length; lia). rewrite qsum_vscale, E0. ring.
      + eapply same_trans.
        * apply IH; [cbn in L; lia|rewrite vadd_length by (rewrite vscale_length; lia); exact L1|exact L2| | |exact E1|].
          -- intros l Hl. apply Sm. now right.
          -- intros l Hl. apply Sd. now right.
          -- intros l Hl. apply H1. now right.
        * cbn [map top_less]. apply same_cons; [|apply same_refl].
          rewrite qsum_vadd by (rewrite vscale_length; lia). rewrite qsum_vscale, E0. ring.
  Qed.
  Lemma dep_shape : forall ds ms m0 d0, length ds = length ms -> length m0 = nf -> length d0 = nf -> shaped nf ms -> shaped nf ds ->
    shaped nf (arrange_deposition dm (d0 :: ds) (m0 :: ms)).
  Proof.
    induction ds as [|d1 ds IH]; intros [|m1 ms] m0 d0 L S0 T0 Sm Sd; try discriminate L.
    - rewrite dep_one. intros l [<-|[]]. rewrite vsub_length by (rewrite vscale_length; lia). exact S0.
    - assert (L1 : length m1 = nf) by (apply Sm; now left). assert (L2 : length d1 = nf) by (apply Sd; now left).
      rewrite dep_cons. intros l [<-|Hl].
      + rewrite vsub_length by (rewrite vscale_length; lia). exact S0.
      + revert l Hl. apply IH; [cbn in L; lia|rewrite vadd_length by (rewrite vscale_length; lia); exact L1|exact L2| |].
        * intros l Hl. apply Sm. now right.
        * intros l Hl. apply Sd. now right.
  Qed.
  Lemma dep_fraction k : forall ds ms m0 d0, length ds = length ms -> length m0 = nf -> length d0 = nf -> shaped nf ms -> shaped nf ds ->
    fraction_mass k (arrange_deposition dm (d0 :: ds) (m0 :: ms)) == fraction_mass k (m0 :: ms) - dm * nth k (last ds d0) 0.
  Proof.
    unfold fraction_mass, column. induction ds as [|d1 ds IH]; intros [|m1 ms] m0 d0 L S0 T0 Sm Sd; try discriminate L.
    - rewrite dep_one. cbn [map last]. unfold qsum. cbn [fold_right]. rewrite nth_vsub by (rewrite vscale_length; lia). rewrite nth_vscale. ring.
    - assert (L1 : length m1 = nf) by (apply Sm; now left). assert (L2 : length d1 = nf) by (apply Sd; now left).
      rewrite dep_cons, last_cons. cbn [map]. unfold qsum at 1. cbn [fold_right].
      fold (qsum (map (fun row => nth k row 0) (arrange_deposition dm (d1 :: ds) (vadd m1 (vscale dm d0) :: ms)))).
      rewrite IH; [|cbn in L; lia|rewrite vadd_length by (rewrite vscale_length; lia); exact L1|exact L2|intros l Hl; apply Sm; now right|intros l Hl; apply Sd; now right].
      cbn [map]. unfold qsum. cbn [fold_right].
      rewrite nth_vsub by (rewrite vscale_length; lia). rewrite nth_vadd by (rewrite vscale_length; lia). rewrite !nth_vscale. ring.
  Qed.
  Lemma dep_nonneg : 0 <= dm -> forall ms m0 d0, length m0 = nf -> length d0 = nf -> shaped nf ms -> nonneg_bed ms -> all_nonneg d0 ->
    (forall k, 0 <= nth k m0 0 - dm * nth k d0 0) ->
    (forall l, In l ms -> 0 < qsum l /\ dm <= qsum l) ->
    nonneg_bed (arrange_deposition dm (d0 :: map (normalize 0) ms) (m0 :: ms)).
  Proof.
    intros Hdm. induction ms as [|m1 ms IH]; intros m0 d0 S0 T0 Sm Nm N0 H0 Hs.
    - cbn [map]. rewrite dep_one. intros l [<-|[]]. apply nonneg_nth. intros k.
      rewrite nth_vsub by (rewrite vscale_length; lia). rewrite nth_vscale. apply H0.
    - assert (L1 : length m1 = nf) by (apply Sm; now left). assert (N1 : all_nonneg m1) by (apply Nm; now left).
      destruct (Hs m1 (or_introl eq_refl)) as [P1 P2]. cbn [map]. rewrite dep_cons. intros l [<-|Hl].
      + apply nonneg_nth. intros k. rewrite nth_vsub by (rewrite vscale_length; lia). rewrite nth_vscale. apply H0.
      + revert l Hl. apply IH.
        * rewrite vadd_length by (rewrite vscale_length; lia). exact L1.
        * rewrite normalize_length. exact L1.
        * intros l Hl. apply Sm. now right.
        * intros l Hl. apply Nm. now right.
        * now apply normalize_nonneg.
        * intros k. rewrite nth_vadd by (rewrite vscale_length; lia). rewrite nth_vscale.
          pose proof (remaining m1 dm k N1 P1 P2). pose proof (proj1 (nonneg_nth _) N0 k).
          assert (0 <= dm * nth k d0 0) by (apply Qmult_le_0_compat; lra). lra.
        * intros l Hl. apply Hs. now right.
  Qed.
End Deposition.

(** ** prevent_negative_mass, case 1 *)
Lemma erosive_nth p k : nth k (erosive p) 0 == qmax 0 (nth k p 0).
Proof.
  unfold erosive. revert k. induction p as [|x p IH]; intros [|k]; cbn [map nth]; try reflexivity. apply IH.
Qed.
Lemma depositing_nth p k : nth k (depositing p) 0 == - qmin 0 (nth k p 0).
Proof. unfold depositing. revert k. induction p as [|x p IH]; intros [|k]; cbn [map nth]; try reflexivity. apply IH. Qed.
Lemma ero_minus_dep x : qmax 0 x - - qmin 0 x == x.
Proof. unfold qmax, qmin. qsplit; lra. Qed.
Lemma qsum_parts p : qsum (erosive p) - qsum (depositing p) == qsum p.
Proof.
  unfold erosive, depositing, qsum. induction p as [|x p IH]; cbn [map fold_right]; [ring|].
  pose proof (ero_minus_dep x). lra.
Qed.
Lemma depositing_nonneg p : all_nonneg (depositing p).
Proof. intros x Hx. apply in_map_iff in Hx. destruct Hx as [y [<- _]]. pose proof (qmin_l 0 y). lra. Qed.
Lemma erosive_nonneg p : all_nonneg (erosive p).
Proof. intros x Hx. apply in_map_iff in Hx. destruct Hx as [y [<- _]]. apply qmax_l. Qed.

Lemma prevent1_spec top rest dm pickup : length top = length pickup -> dm == - qsum pickup -> all_nonneg top ->
  (forall k, nth k pickup 0 <= nth k top 0) ->
  exists top1 dm1 p1, prevent1 (top :: rest) dm pickup = (top1 :: rest, dm1, p1) /\
    length top1 = length top /\ length p1 = length pickup /\ dm1 == dm /\ dm1 == - qsum p1 /\ qsum top1 == qsum top /\
    (forall k, nth k top1 0 - nth k p1 0 == nth k top 0 - nth k pickup 0) /\ all_nonneg top1 /\
    (0 < dm -> forall k, nth k p1 0 <= 0) /\ (dm <= 0 -> top1 = top /\ p1 = pickup /\ dm1 = dm).
Proof.
  intros L E Nt Hp. unfold prevent1. destruct (Qltb_spec 0 dm) as [Hd|Hd]; cbn [andb].
  - destruct (Qltb_spec 0 (qsum (erosive pickup))) as [He|He].
    + set (ero := erosive pickup) in *. set (dep := depositing pickup). set (erog := qsum ero) in *.
      assert (Hdep : qsum ero - qsum dep == qsum pickup) by apply qsum_parts.
      assert (Hdep0 : 0 < qsum dep) by (unfold erog in He; lra).
      assert (Hlt : erog < qsum dep) by (unfold erog; lra).
      assert (Ndep : all_nonneg dep) by apply depositing_nonneg.
      set (ddep := vscale erog (normalize 0 dep)).
      assert (Ldep : length dep = length pickup) by apply map_length.
      assert (Lero : length ero = length pickup) by apply map_length.
      assert (Lddep : length ddep = length pickup) by (unfold ddep; rewrite vscale_length, normalize_length; exact Ldep).
      assert (Sddep : qsum ddep == erog) by (unfold ddep; rewrite qsum_vscale, qsum_normalize by exact Hdep0; ring).
      assert (Kddep : forall k, nth k ddep 0 == erog * (nth k dep 0 / qsum dep)) by (intros k; unfold ddep; rewrite nth_vscale, nth_normalize by exact Hdep0; reflexivity).
      exists (vsub top (vsub ero ddep)), (- qsum (vsub ddep dep)), (vsub ddep dep).
      assert (Ld : length (vsub ero ddep) = length top) by (rewrite vsub_length; lia).
      split; [reflexivity|]. split; [apply vsub_length; lia|]. split; [rewrite vsub_length; lia|].
      assert (Es : qsum (vsub ddep dep) == erog - qsum dep) by (rewrite qsum_vsub by lia; rewrite Sddep; reflexivity).
      split; [rewrite Es; unfold erog; lra|]. split; [reflexivity|].
      split; [rewrite qsum_vsub by lia; rewrite qsum_vsub by lia; rewrite Sddep; unfold erog; ring|].
      split; [|split; [|split; [|intros; lra]]].
      * intros k. rewrite !nth_vsub by lia. pose proof (ero_minus_dep (nth k pickup 0)) as P.
        unfold ero, dep. rewrite erosive_nth, depositing_nth. lra.
      * apply nonneg_nth. intros k. rewrite !nth_vsub by lia. rewrite Kddep. unfold ero. rewrite erosive_nth.
        pose proof (proj1 (nonneg_nth _) Nt k). pose proof (proj1 (nonneg_nth _) Ndep k). specialize (Hp k).
        assert (0 <= nth k dep 0 / qsum dep) by (apply qdiv_nonneg; assumption).
        assert (0 <= erog * (nth k dep 0 / qsum dep)) by (apply Qmult_le_0_compat; lra).
        destruct (qmax_cases 0 (nth k pickup 0)) as [[-> _]|[-> _]]; lra.
      * intros _ k. rewrite nth_vsub by lia. rewrite Kddep. pose proof (proj1 (nonneg_nth _) Ndep k) as Nk.
        assert (E2 : erog * (nth k dep 0 / qsum dep) - nth k dep 0 == - (nth k dep 0 * (qsum dep - erog) / qsum dep)) by (field; lra). rewrite E2.
        assert (0 <= nth k dep 0 * (qsum dep - erog) / qsum dep) by (apply qdiv_nonneg; [apply Qmult_le_0_compat; lra|exact Hdep0]). lra.
    + exists top, dm, pickup. assert (H0 : forall k, nth k (erosive pickup) 0 == 0).
      { intros k. pose proof (proj1 (nonneg_nth _) (erosive_nonneg pickup) k) as H.
        assert (nth k (erosive pickup) 0 <= qsum (erosive pickup)).
        { destruct (Nat.lt_ge_cases k (length (erosive pickup))) as [Hk|Hk].
          - apply qsum_member; [apply erosive_nonneg|now apply nth_In].
          - rewrite nth_overflow by exact Hk. apply qsum_nonneg. apply erosive_nonneg. }
        lra. }
      split; [reflexivity|]. split; [reflexivity|]. split; [reflexivity|]. split; [reflexivity|]. split; [exact E|]. split; [reflexivity|].
      split; [reflexivity|]. split; [exact Nt|]. split; [|intros; lra].
      intros _ k. specialize (H0 k). rewrite erosive_nth in H0. pose proof (qmax_r 0 (nth k pickup 0)). lra.
  - exists top, dm, pickup. split; [reflexivity|]. split; [reflexivity|]. split; [reflexivity|]. split; [reflexivity|]. split; [exact E|]. split; [reflexivity|].
    split; [reflexivity|]. split; [exact Nt|]. split; [intros; lra|]. intros _. now repeat split.
Qed.

(** Case 2. *)
Lemma not_exceeds dm mx : 0 < mx -> dm < mx -> exceeds dm mx 0 = false.
Proof.
  intros H1 H2. unfold exceeds. destruct (Qeq_bool_spec mx 0) as [H|H]; [lra|]. cbn [Z.of_nat].
  apply Z.ltb_ge. assert (Hlt : dm / mx < 1) by (apply Qlt_shift_div_r; lra).
  assert (Hf : inject_Z (Qfloor (dm / mx)) < inject_Z 1) by (pose proof (Qfloor_le (dm / mx)); change (inject_Z 1) with 1; lra).
  rewrite <- Zlt_Qlt in Hf. lia.
Qed.
Lemma yes_exceeds dm mx : 0 < mx -> mx <= dm -> exceeds dm mx 0 = true.
Proof.
  intros H1 H2. unfold exceeds. destruct (Qeq_bool_spec mx 0) as [H|H]; [lra|]. cbn [Z.of_nat].
  apply Z.ltb_lt. assert (Hge : inject_Z 1 <= dm / mx) by (apply Qle_shift_div_l; [exact H1|change (inject_Z 1) with 1; lra]).
  apply Qfloor_resp_le in Hge. rewrite Qfloor_Z in Hge. lia.
Qed.
Lemma fill_none dm mx fresh k m p : 0 < mx -> dm < mx -> fill_layers dm mx fresh 0 k m p = (m, p).
Proof. intros H1 H2. destruct k; cbn [fill_layers]; [reflexivity|]. now rewrite not_exceeds. Qed.
Lemma prevent2_small any m dm p : 0 < top_mass m -> dm < top_mass m -> prevent2 any m dm p = (m, dm, p).
Proof.
  intros H1 H2. unfold prevent2. destruct any; [|reflexivity]. rewrite fill_none by assumption.
  destruct (Qltb_spec (top_mass m) dm); [lra|reflexivity].
Qed.
Lemma fill_length dm mx fresh : forall k i m p, length p = length fresh -> length m = k ->
  exists m' p', fill_layers dm mx fresh i k m p = (m', p') /\ length m' = k /\ length p' = length fresh.
Proof.
  induction k as [|k IH]; intros i m p Lp Lm; cbn [fill_layers]; [exists m, p; now repeat split|].
  destruct (exceeds dm mx i); [|exists m, p; now repeat split].
  destruct (IH (S i) (removelast m) (vsub p fresh)) as [m' [p' [E [L1 L2]]]].
  - now rewrite vsub_length.
  - assert (H : m <> []) by (destruct m; [discriminate Lm|discriminate]). apply exists_last in H. destruct H as [u [x ->]].
    rewrite removelast_last. rewrite app_length in Lm. cbn in Lm. lia.
  - rewrite E. exists (fresh :: m'), p'. cbn [length]. repeat split; [now rewrite L1|exact L2].
Qed.
Lemma removelast_in {A} (m : list A) x : In x (removelast m) -> In x m.
Proof.
  intros H. destruct m as [|a m]; [exact H|]. destruct (@exists_last _ (a :: m)) as [u [y E]]; [discriminate|].
  rewrite E in *. rewrite removelast_last in H. apply in_or_app. now left.
Qed.
Lemma fill_in dm mx fresh : forall k i m p m' p', fill_layers dm mx fresh i k m p = (m', p') ->
  forall l, In l m' -> l = fresh \/ In l m.
Proof.
  induction k as [|k IH]; intros i m p m' p' E l Hl; cbn [fill_layers] in E; [injection E as <- <-; now right|].
  destruct (exceeds dm mx i); [|injection E as <- <-; now right].
  destruct (fill_layers dm mx fresh (S i) k (removelast m) (vsub p fresh)) as [m1 p1] eqn:E1. injection E as <- <-.
  destruct Hl as [<-|Hl]; [now left|]. destruct (IH _ _ _ _ _ E1 l Hl) as [->|H]; [now left|right; now apply removelast_in].
Qed.
Lemma qsum_zeros {A} (l : list A) : qsum (map (fun _ => 0) l) == 0.
Proof. rewrite qsum_map_const. ring. Qed.
Lemma nth_zeros {A} (l : list A) k : nth k (map (fun _ => 0) l) 0 == 0.
Proof. revert k. induction l as [|a l IH]; intros [|k]; cbn; try reflexivity. apply IH. Qed.

Lemma prevent2_large m dm p m' p' : top_mass m < dm ->
  fill_layers dm (top_mass m) (vscale (top_mass m) (normalize 0 p)) 0 (length m) m p = (m', p') ->
  prevent2 true m dm p = (m', - qsum (map (fun _ : Q => 0) p'), map (fun _ => 0) p').
Proof. intros H E. unfold prevent2. rewrite E. destruct (Qltb_spec (top_mass m) dm); [reflexivity|lra]. Qed.

(** ** update *)
Lemma tiny_id e l : all_nonneg l -> prevent_tiny_negatives e 0 l = l.
Proof.
  unfold prevent_tiny_negatives, no_tiny_negative. induction l as [|x l IH]; intros H; cbn [map]; [reflexivity|].
  assert (0 <= x) by (apply H; now left). destruct (Qltb_spec x 0) as [Hx|Hx]; [lra|]. cbn [andb]. f_equal. apply IH.
  intros y Hy. apply H. now right.
Qed.
Lemma tiny_bed_id e m : nonneg_bed m -> map (prevent_tiny_negatives e 0) m = m.
Proof.
  induction m as [|l m IH]; intros H; cbn [map]; [reflexivity|]. rewrite tiny_id by (apply H; now left). f_equal. apply IH.
  intros x Hx. apply H. now right.
Qed.
Lemma same_layer_masses_norm ms : (forall l, In l ms -> 0 < qsum l) -> forall d, In d (map (normalize 0) ms) -> qsum d == 1.
Proof. intros H d Hd. apply in_map_iff in Hd. destruct Hd as [l [<- Hl]]. apply qsum_normalize. now apply H. Qed.
Lemma shaped_norm nf ms : shaped nf ms -> shaped nf (map (normalize 0) ms).
Proof. intros H d Hd. apply in_map_iff in Hd. destruct Hd as [l [<- Hl]]. rewrite normalize_length. now apply H. Qed.
Lemma fraction_cons k l m : fraction_mass k (l :: m) == nth k l 0 + fraction_mass k m.
Proof. reflexivity. Qed.

Lemma update_cell_spec any e nf base top rest pickup :
  length base = nf -> distribution base -> shaped nf (top :: rest) -> nonneg_bed (top :: rest) -> length pickup = nf ->
  (forall k, nth k pickup 0 <= nth k top 0) ->
  (forall l, In l (top :: rest) -> 0 < qsum l /\ qabs (net_deposit pickup) <= qsum l) -> net_deposit pickup < qsum top ->
  exists m' dm' p' out, update_cell any e base (top :: rest) pickup = (m', dm', p') /\
    dm' == net_deposit pickup /\ shaped nf m' /\ nonneg_bed m' /\ same (layer_masses m') (layer_masses (top :: rest)) /\
    distribution out /\ length out = nf /\
    (forall k, fraction_mass k m' == fraction_mass k (top :: rest) - nth k pickup 0 - net_deposit pickup * nth k out 0) /\
    (net_deposit pickup < 0 -> out = base) /\ (rest <> [] -> 0 < net_deposit pickup -> out = normalize 0 (last rest top)).
Proof.
  intros Lb Db Sm Nm Lp Hp Hs Hlt.
  assert (Lt : length top = nf) by (apply Sm; now left). assert (Nt : all_nonneg top) by (apply Nm; now left).
  assert (Sr : shaped nf rest) by (intros l Hl; apply Sm; now right). assert (Nr : nonneg_bed rest) by (intros l Hl; apply Nm; now right).
  assert (Hr : forall l, In l rest -> 0 < qsum l) by (intros l Hl; apply Hs; now right).
  unfold update_cell, net_deposit in *. fold (exchanged pickup) in *. set (dm := exchanged pickup) in *.
  destruct (prevent1_spec top rest dm pickup) as [top1 [dm1 [p1 [E [L1 [Lp1 [D1 [D1s [T1 [K1 [N1 [P1 Q1]]]]]]]]]]]]; try assumption; [lia|reflexivity|].
  rewrite E. destruct (Hs top (or_introl eq_refl)) as [Ht0 Ht1].
  rewrite prevent2_small; [|cbn [top_mass]; lra|cbn [top_mass]; lra].
  cbn [first_layer map].
  assert (Lv : length (vsub top1 p1) = nf) by (rewrite vsub_length; lia).
  assert (Tv : qsum (vsub top1 p1) == qsum top + dm) by (rewrite qsum_vsub by lia; rewrite T1; lra).
  assert (Kv : forall k, nth k (vsub top1 p1) 0 == nth k top 0 - nth k pickup 0) by (intros k; rewrite nth_vsub by lia; apply K1).
  pose proof (qabs_ge dm) as [A1 A2].
  destruct (Qltb_spec dm 0) as [Hd|Hd].
  - (* erosion *)
    assert (dm <= 0) as Hd' by lra. destruct (Q1 Hd') as [-> [-> ->]].
    assert (NN : nonneg_bed (erode_layers dm base (normalize 0 top :: map (normalize 0) rest) (vsub top pickup :: rest))).
    { apply (erode_nonneg nf); try assumption; [exact (proj1 Db)| |].
      - apply nonneg_nth. intros k. rewrite Kv. specialize (Hp k). lra.
      - intros l Hl. destruct (Hs l (or_intror Hl)). split; lra. }
    rewrite tiny_bed_id by exact NN.
    exists (erode_layers dm base (normalize 0 top :: map (normalize 0) rest) (vsub top pickup :: rest)), dm, pickup, base. split; [reflexivity|]. split; [reflexivity|].
    split; [apply erode_shape; try assumption; [apply map_length|now apply shaped_norm]|]. split; [exact NN|].
    split; [|split; [exact Db|split; [exact Lb|split; [|split; [reflexivity|intros; lra]]]]].
    + eapply same_trans; [apply (erode_masses nf); try assumption; [exact (proj2 Db)|apply map_length|now apply shaped_norm|now apply same_layer_masses_norm]|].
      cbn [layer_masses map top_less]. apply same_cons; [rewrite Tv; ring|apply same_refl].
    + intros k. rewrite (erode_fraction nf); try assumption; [|apply map_length|now apply shaped_norm].
      rewrite !fraction_cons, Kv. ring.
  - destruct (Qltb_spec 0 dm) as [Hd0|Hd0].
    + (* deposition *)
      assert (Npos : forall k, nth k p1 0 <= 0) by (now apply P1).
      assert (T1' : 0 < qsum top1) by lra.
      assert (NN : nonneg_bed (arrange_deposition dm1 (normalize 0 top1 :: map (normalize 0) rest) (vsub top1 p1 :: rest))).
      { apply (dep_nonneg nf); try assumption; [lra|rewrite normalize_length; lia|now apply normalize_nonneg| |].
        - intros k. rewrite nth_vsub by lia. specialize (Npos k).
          assert (H : dm1 <= qsum top1) by lra. pose proof (remaining top1 dm1 k N1 T1' H). lra.
        - intros l Hl. destruct (Hs l (or_intror Hl)). split; lra. }
      rewrite tiny_bed_id by exact NN.
      assert (Ln : length (normalize 0 top1) = nf) by (rewrite normalize_length; lia).
      eexists _, dm1, p1, (last (map (normalize 0) rest) (normalize 0 top1)). split; [reflexivity|]. split; [exact D1|].
      split; [apply dep_shape; try assumption; [apply map_length|now apply shaped_norm]|]. split; [exact NN|].
      assert (HL : forall l, In l (normalize 0 top1 :: map (normalize 0) rest) -> distribution l /\ length l = nf).
      { intros l [<-|Hl]; [split; [now apply normalize_distribution|exact Ln]|]. apply in_map_iff in Hl. destruct Hl as [x [<- Hx]].
        split; [apply normalize_distribution; [now apply Nr|now apply Hr]|rewrite normalize_length; now apply Sr]. }
      assert (Hlast : In (last (map (normalize 0) rest) (normalize 0 top1)) (normalize 0 top1 :: map (normalize 0) rest)).
      { destruct rest as [|r0 rest]; [now left|]. right. destruct (@exists_last _ (map (normalize 0) (r0 :: rest))) as [u [x Eu]]; [discriminate|].
        rewrite Eu, last_last. apply in_or_app. right. now left. }
      destruct (HL _ Hlast) as [HL1 HL2].
      split; [|split; [exact HL1|split; [exact HL2|split; [|split; [intros; lra|]]]]].
      * eapply same_trans; [apply (dep_masses nf); try assumption; [apply map_length|now apply shaped_norm|now apply qsum_normalize|now apply same_layer_masses_norm]|].
        cbn [layer_masses map top_less]. apply same_cons; [rewrite Tv; lra|apply same_refl].
      * intros k. rewrite (dep_fraction nf); try assumption; [|apply map_length|now apply shaped_norm].
        rewrite !fraction_cons, Kv, D1. ring.
      * intros Hne _. destruct rest as [|r0 rest]; [contradiction|]. cbn [map]. rewrite !last_cons. apply last_map.
    + (* balance *)
      assert (dm <= 0) as Hd' by lra. destruct (Q1 Hd') as [-> [-> ->]].
      assert (NN : nonneg_bed (vsub top pickup :: rest)).
      { intros l [<-|Hl]; [|now apply Nr]. apply nonneg_nth. intros k. rewrite Kv. specialize (Hp k). lra. }
      rewrite tiny_bed_id by exact NN.
      eexists _, dm, pickup, base. split; [reflexivity|]. split; [reflexivity|].
      split; [intros l [<-|Hl]; [exact Lv|now apply Sr]|]. split; [exact NN|].
      split; [|split; [exact Db|split; [exact Lb|split; [|split; [reflexivity|intros; lra]]]]].
      * cbn [layer_masses map]. apply same_cons; [rewrite Tv; lra|apply same_refl].
      * intros k. rewrite !fraction_cons, Kv. assert (dm == 0) as -> by lra. ring.
Qed.

(** Deposition of more than the mass of the top layer. *)
Lemma update_cell_discard e base top rest pickup nf :
  length base = nf -> shaped nf (top :: rest) -> nonneg_bed (top :: rest) -> length pickup = nf -> (forall k, nth k pickup 0 <= nth k top 0) ->
  0 < qsum top -> qsum top < net_deposit pickup ->
  exists m' dm' p', update_cell true e base (top :: rest) pickup = (m', dm', p') /\ dm' == 0 /\ length p' = nf /\ (forall k, nth k p' 0 == 0) /\
    ((forall l, In l rest -> qsum l == qsum top) -> length m' = S (length rest) /\ forall l, In l m' -> qsum l == qsum top /\ all_nonneg l).
Proof.
  intros Lb Sm Nm Lp Hp Ht Hgt. assert (Lt : length top = nf) by (apply Sm; now left). assert (Nt : all_nonneg top) by (apply Nm; now left).
  unfold update_cell, net_deposit in *. fold (exchanged pickup) in *. set (dm := exchanged pickup) in *.
  destruct (prevent1_spec top rest dm pickup) as [top1 [dm1 [p1 [E [L1 [Lp1 [D1 [D1s [T1 [K1 [N1 [P1 Q1]]]]]]]]]]]]; try assumption; [lia|reflexivity|].
  set (fresh := vscale (qsum top1) (normalize 0 p1)).
  assert (Lf : length fresh = nf) by (unfold fresh; rewrite vscale_length, normalize_length; lia).
  destruct (fill_length dm1 (qsum top1) fresh (length (top1 :: rest)) 0 (top1 :: rest) p1) as [m2 [p2 [E2 [Lm2 Lp2]]]]; [lia|reflexivity|].
  rewrite E. rewrite (prevent2_large (top1 :: rest) dm1 p1 m2 p2); [|cbn [top_mass]; lra|exact E2].
  destruct (Qltb_spec dm 0) as [Hd|Hd]; [exfalso; lra|]. destruct (Qltb_spec 0 dm) as [Hd0|Hd0]; [|exfalso; lra].
  set (z := map (fun _ : Q => 0) p2). assert (Lz : length z = nf) by (unfold z; rewrite map_length; lia).
  assert (Sz : qsum z == 0) by apply qsum_zeros.
  eexists _, _, z. split; [reflexivity|]. split; [lra|]. split; [exact Lz|]. split; [intros k; apply nth_zeros|].
  intros Heq.
  assert (Hm2 : forall l, In l m2 -> length l = nf /\ qsum l == qsum top /\ all_nonneg l).
  { intros l Hl. destruct (fill_in _ _ _ _ _ _ _ _ _ E2 l Hl) as [->|[<-|Hl']].
    - split; [exact Lf|]. assert (Hs : ~ qsum p1 == 0) by (intros H; lra). split.
      + unfold fresh. rewrite qsum_vscale, normalize_sum by exact Hs. lra.
      + apply nonneg_nth. intros k. unfold fresh. rewrite nth_vscale. rewrite normalize_nonzero by exact Hs.
        destruct (Nat.lt_ge_cases k (length p1)) as [Hk|Hk].
        * rewrite (nth_map (fun a => a / qsum p1)) with (d := 0) by exact Hk. assert (nth k p1 0 <= 0) by (apply P1; exact Hd0).
          apply Qmult_le_0_compat; [lra|]. assert (E3 : nth k p1 0 / qsum p1 == (- nth k p1 0) / (- qsum p1)) by (field; exact Hs). rewrite E3.
          apply qdiv_nonneg; lra.
        * rewrite nth_overflow by (rewrite map_length; exact Hk). lra.
    - split; [lia|]. split; [exact T1|exact N1].
    - split; [apply Sm; now right|]. split; [now apply Heq|apply Nm; now right]. }
  destruct m2 as [|t2 r2]; [discriminate Lm2|]. cbn [first_layer map].
  destruct (Hm2 t2 (or_introl eq_refl)) as [A1 [A2 A3]].
  assert (Sr2 : shaped nf r2) by (intros l Hl; apply Hm2; now right).
  set (d0 := - qsum z). assert (Hd00 : d0 == 0) by (unfold d0; lra).
  assert (Kz : forall k, nth k (vsub t2 z) 0 == nth k t2 0) by (intros k; rewrite nth_vsub by lia; unfold z; rewrite nth_zeros; ring).
  assert (NN : nonneg_bed (arrange_deposition d0 (normalize 0 t2 :: map (normalize 0) r2) (vsub t2 z :: r2))).
  { apply (dep_nonneg nf).
    - lra.
    - rewrite vsub_length; lia.
    - rewrite normalize_length; lia.
    - exact Sr2.
    - intros l Hl. destruct (Hm2 l (or_intror Hl)) as [_ [_ H]]. exact H.
    - apply normalize_nonneg; [exact A3|lra].
    - intros k. rewrite Kz, Hd00. pose proof (proj1 (nonneg_nth _) A3 k). lra.
    - intros l Hl. destruct (Hm2 l (or_intror Hl)) as [_ [H _]]. split; lra. }
  rewrite tiny_bed_id by exact NN.
  assert (SM : same (layer_masses (arrange_deposition d0 (normalize 0 t2 :: map (normalize 0) r2) (vsub t2 z :: r2))) (layer_masses (t2 :: r2))).
  { eapply same_trans; [apply (dep_masses nf)|].
    - apply map_length.
    - rewrite vsub_length; lia.
    - rewrite normalize_length; lia.
    - exact Sr2.
    - now apply shaped_norm.
    - apply qsum_normalize. lra.
    - apply same_layer_masses_norm. intros l Hl. destruct (Hm2 l (or_intror Hl)) as [_ [H _]]. lra.
    - cbn [layer_masses map top_less]. apply same_cons; [rewrite qsum_vsub by lia; lra|apply same_refl]. }
  split.
  - assert (LL : length (layer_masses (arrange_deposition d0 (normalize 0 t2 :: map (normalize 0) r2) (vsub t2 z :: r2))) = length (layer_masses (t2 :: r2))) by (exact (same_length _ _ SM)).
    unfold layer_masses in LL. rewrite !map_length in LL. etransitivity; [exact LL|exact Lm2].
  - intros l Hl. split; [|now apply NN].
    assert (Hi : In (qsum l) (layer_masses (arrange_deposition d0 (normalize 0 t2 :: map (normalize 0) r2) (vsub t2 z :: r2)))) by (now apply in_map).
    revert Hi. generalize (qsum l). intros q Hq. refine (same_const _ (layer_masses (t2 :: r2)) (qsum top) SM _ q Hq).
    intros x Hx. apply in_map_iff in Hx. destruct Hx as [y [<- Hy]]. now destruct (Hm2 y Hy) as [_ [H _]].
Qed.

(** ** update, on the grid *)
Definition sound_cell (nf : nat) (c : bedcell) : Prop :=
  length (pickup c) = nf /\ shaped nf (mass c) /\ nonneg_bed (mass c) /\
  exists top rest, mass c = top :: rest /\ 0 < qsum top /\ forall k, nth k (pickup c) 0 <= nth k top 0.
Lemma update_nth p cells i c base : nth_error cells i = Some (c, base) ->
  exists m' dm' p', update_cell (existsb (fun cb => overfull (fst cb)) cells) (max_error p) base (mass c) (pickup c) = (m', dm', p') /\
    nth_error (update p cells) i = Some {| mass := m'; pickup := p';
      zb := zb c + (if process_bedupdate p then dm' / (rhog p * (1 - porosity p)) else 0);
      zs := if process_tide p then zs c + (if process_bedupdate p then dm' / (rhog p * (1 - porosity p)) else 0) else zs c |}.
Proof.
  intros H. destruct (update_cell (existsb (fun cb => overfull (fst cb)) cells) (max_error p) base (mass c) (pickup c)) as [[m' dm'] p'] eqn:E.
  exists m', dm', p'. split; [reflexivity|]. unfold update. erewrite map_nth_error by exact H. cbn [fst snd]. now rewrite E.
Qed.
Lemma overfull_true nf c : sound_cell nf c -> top_mass (mass c) < net_deposit (pickup c) -> overfull c = true.
Proof.
  intros [Lp [Sm [Nm [top [rest [E [Ht Hp]]]]]]] Hgt. unfold overfull, net_deposit in *. rewrite E in *. cbn [top_mass] in Hgt.
  destruct (prevent1_spec top rest (exchanged (pickup c)) (pickup c)) as [top1 [dm1 [p1 [E1 [L1 [Lp1 [D1 [D1s [T1 _]]]]]]]]]; try assumption.
  - rewrite Lp. apply Sm. now left.
  - reflexivity.
  - apply Nm. now left.
  - rewrite E1. cbn [top_mass]. apply yes_exceeds; unfold exchanged in *; lra.
Qed.
Lemma existsb_nth {A} (f : A -> bool) l i a : nth_error l i = Some a -> f a = true -> existsb f l = true.
Proof. intros H1 H2. apply existsb_exists. exists a. split; [exact (nth_error_In _ _ H1)|exact H2]. Qed.

Lemma update_moderate p nf cells i c base : nth_error cells i = Some (c, base) -> sound_cell nf c -> length base = nf -> distribution base ->
  (forall l, In l (mass c) -> 0 < qsum l /\ qabs (net_deposit (pickup c)) <= qsum l) -> net_deposit (pickup c) < top_mass (mass c) ->
  exists c' out, nth_error (update p cells) i = Some c' /\
    shaped nf (mass c') /\ nonneg_bed (mass c') /\ same (layer_masses (mass c')) (layer_masses (mass c)) /\
    distribution out /\ length out = nf /\
    (forall k, fraction_mass k (mass c') == fraction_mass k (mass c) - nth k (pickup c) 0 - net_deposit (pickup c) * nth k out 0) /\
    (net_deposit (pickup c) < 0 -> out = base) /\
    ((2 <= length (mass c))%nat -> 0 < net_deposit (pickup c) -> out = normalize 0 (last (mass c) [])) /\
    (process_bedupdate p = true -> zb c' == zb c + net_deposit (pickup c) / (rhog p * (1 - porosity p)) /\
       (process_tide p = true -> zs c' - zb c' == zs c - zb c)).
Proof.
  intros Hn [Lp [Sm [Nm [top [rest [E [Ht Hp]]]]]]] Lb Db Hs Hlt. destruct (update_nth p cells i c base Hn) as [m' [dm' [p' [E1 E2]]]].
  rewrite E in *. cbn [top_mass] in Hlt.
  destruct (update_cell_spec (existsb (fun cb => overfull (fst cb)) cells) (max_error p) nf base top rest (pickup c) Lb Db Sm Nm Lp Hp Hs Hlt)
    as [m2 [dm2 [p2 [out [F [D [S [N [L [O1 [O2 [B [O3 O4]]]]]]]]]]]]].
  rewrite E1 in F. injection F as -> -> ->.
  eexists _, out. split; [exact E2|]. cbn [mass zb zs]. split; [exact S|]. split; [exact N|]. split; [exact L|]. split; [exact O1|]. split; [exact O2|].
  split; [exact B|]. split; [exact O3|]. split.
  - intros H2 H3. rewrite last_cons. apply O4; [|exact H3]. destruct rest; [cbn in H2; lia|discriminate].
  - intros ->. split; [rewrite D; reflexivity|]. intros ->. ring.
Qed.
Lemma update_discard p nf cells i c base : nth_error cells i = Some (c, base) -> sound_cell nf c -> length base = nf ->
  top_mass (mass c) < net_deposit (pickup c) ->
  exists c', nth_error (update p cells) i = Some c' /\ zb c' == zb c /\ (forall k, nth k (pickup c') 0 == 0) /\
    ((forall l, In l (mass c) -> qsum l == top_mass (mass c)) -> length (mass c') = length (mass c) /\
       forall l, In l (mass c') -> qsum l == top_mass (mass c) /\ all_nonneg l).
Proof.
  intros Hn Hc Lb Hgt. pose proof (overfull_true nf c Hc Hgt) as Ho. destruct Hc as [Lp [Sm [Nm [top [rest [E [Ht Hp]]]]]]].
  destruct (update_nth p cells i c base Hn) as [m' [dm' [p' [E1 E2]]]]. rewrite E in *. cbn [top_mass] in *.
  rewrite (existsb_nth (fun cb => overfull (fst cb)) cells i (c, base) Hn Ho) in E1.
  destruct (update_cell_discard (max_error p) base top rest (pickup c) nf Lb Sm Nm Lp Hp Ht Hgt) as [m2 [dm2 [p2 [F [D [L [Z M]]]]]]].
  rewrite E1 in F. injection F as -> -> ->.
  eexists. split; [exact E2|]. cbn [mass zb zs pickup]. split; [|split; [exact Z|]].
  - destruct (process_bedupdate p); [rewrite D; unfold Qdiv; ring|ring].
  - intros H. apply M. intros l Hl. apply H. now right.
Qed.

(** ** mixtoplayer *)
Section Mix.
  Context (nf : nat) (f : Q).
  Definition blend (mean l : list Q) : list Q := map2 (fun m1 m => m1 * f + m * (1 - f)) mean l.
  Definition mixed (mean : list Q) (ix : list bool) (m : bed) : bed := map2 (fun (b : bool) l => if b then blend mean l else l) ix m.
  Lemma blend_length mean l : length mean = length l -> length (blend mean l) = length l.
  Proof. intros H. unfold blend. rewrite map2_length by exact H. exact H. Qed.
  Lemma nth_blend mean l k : length mean = length l -> nth k (blend mean l) 0 == nth k mean 0 * f + nth k l 0 * (1 - f).
  Proof.
    intros H. destruct (Nat.lt_ge_cases k (length l)) as [Hk|Hk].
    - unfold blend. rewrite (nth_map2 _ mean l k 0 0 0) by lia. reflexivity.
    - rewrite !nth_overflow by (rewrite ?blend_length; lia). ring.
  Qed.
  Lemma qsum_blend mean : forall l, length mean = length l -> qsum (blend mean l) == f * qsum mean + (1 - f) * qsum l.
  Proof.
    unfold blend, qsum. induction mean as [|x mean IH]; intros [|y l] H; cbn in *; try discriminate; [ring|]. rewrite IH by lia. ring.
  Qed.
  Lemma selected_cons b ix l m : selected (b :: ix) (l :: m) = if b then l :: selected ix m else selected ix m.
  Proof. unfold selected. cbn [combine filter fst]. now destruct b. Qed.
  Lemma selected_in ix : forall m l, In l (selected ix m) -> In l m.
  Proof.
    intros m l H. unfold selected in H. apply in_map_iff in H. destruct H as [[b x] [<- H]]. apply filter_In in H. destruct H as [H _].
    exact (in_combine_r _ _ _ _ H).
  Qed.
  Lemma mixed_fraction mean k : length mean = nf -> forall ix m, length ix = length m -> shaped nf m ->
    fraction_mass k (mixed mean ix m) == fraction_mass k m +
      f * (inject_Z (Z.of_nat (length (selected ix m))) * nth k mean 0 - fraction_mass k (selected ix m)).
  Proof.
    intros Lm. induction ix as [|b ix IH]; intros [|l m] L S; try discriminate L.
    - unfold fraction_mass, column, qsum, selected, mixed. cbn. ring.
    - assert (Ll : length l = nf) by (apply S; now left). assert (Sm : shaped nf m) by (intros x Hx; apply S; now right).
      assert (L' : length ix = length m) by (cbn in L; lia). specialize (IH m L' Sm).
      unfold mixed in *. cbn [map2]. rewrite selected_cons, !fraction_cons. rewrite IH. destruct b.
      + rewrite fraction_cons, nth_blend by lia. cbn [length]. rewrite Nat2Z.inj_succ, <- Z.add_1_l, inject_Z_plus. ring.
      + ring.
  Qed.
End Mix.

Lemma layer_mean_length nf sel : shaped nf sel -> length (layer_mean nf sel) = nf.
Proof. intros H. unfold layer_mean. rewrite map_length. now apply column_sums_length. Qed.
Lemma count_pos {A} (l : list A) : l <> [] -> 0 < inject_Z (Z.of_nat (length l)).
Proof. intros H. rewrite <- (Zlt_Qlt 0). destruct l; [contradiction|cbn [length]; lia]. Qed.
Lemma nth_layer_mean nf sel k : shaped nf sel -> nth k (layer_mean nf sel) 0 == fraction_mass k sel / inject_Z (Z.of_nat (length sel)).
Proof.
  intros H. unfold layer_mean. pose proof (column_sum nf sel k H) as E. pose proof (column_sums_length nf sel H) as Ls.
  destruct (Nat.lt_ge_cases k nf) as [Hk|Hk].
  - rewrite (nth_map (fun s => s / inject_Z (Z.of_nat (length sel)))) with (d := 0) by lia. rewrite E. reflexivity.
  - rewrite nth_overflow in E by lia. rewrite nth_overflow by (rewrite map_length; lia). unfold fraction_mass. rewrite <- E. unfold Qdiv. ring.
Qed.
Lemma qsum_column_sums nf m : shaped nf m -> qsum (column_sums nf m) == qsum (layer_masses m).
Proof.
  unfold column_sums, layer_masses. induction m as [|l m IH]; intros H; cbn [fold_right map].
  - clear H. unfold qsum. induction nf as [|n IHn]; cbn [repeat fold_right] in *; [reflexivity|]. rewrite IHn. ring.
  - assert (Sm : shaped nf m) by (intros x Hx; apply H; now right).
    fold (column_sums nf m) in *. change (add_rows l (column_sums nf m)) with (vadd l (column_sums nf m)).
    rewrite qsum_vadd by (rewrite column_sums_length by exact Sm; apply H; now left). rewrite IH by exact Sm. reflexivity.
Qed.
Lemma fraction_nonneg k m : nonneg_bed m -> 0 <= fraction_mass k m.
Proof.
  intros H. unfold fraction_mass. apply qsum_nonneg. intros x Hx. apply in_map_iff in Hx. destruct Hx as [l [<- Hl]].
  apply nonneg_nth. now apply H.
Qed.

Lemma mix_cell_eq nf fac c : mix_cell true nf fac c =
  mixed (mixfraction (dod fac c) (thlyr c)) (layer_mean nf (selected (with_top true (disturbed (dod fac c) (thlyr c))) (mixmass c)))
    (with_top true (disturbed (dod fac c) (thlyr c))) (mixmass c).
Proof. reflexivity. Qed.
Lemma disturbed_length d th : length (disturbed d th) = length th.
Proof. unfold disturbed. now rewrite map_length, cumsum_length. Qed.
Lemma with_top_length a ix : length (with_top a ix) = length ix.
Proof. unfold with_top. destruct a, ix; reflexivity. Qed.
Lemma mixfraction_range d th : all_nonneg th -> 0 <= mixfraction d th /\ mixfraction d th <= 1.
Proof.
  intros H. unfold mixfraction. destruct (Qltb_spec 0 d) as [Hd|Hd]; [|lra]. split; [|apply qmin_l].
  apply qmin_glb; [lra|]. apply qdiv_nonneg; [now apply qsum_nonneg|exact Hd].
Qed.
Lemma mix_conserves any nf fac c k : length (thlyr c) = length (mixmass c) -> shaped nf (mixmass c) ->
  fraction_mass k (mix_cell any nf fac c) == fraction_mass k (mixmass c).
Proof.
  intros L S. destruct any; [|reflexivity]. rewrite mix_cell_eq.
  set (ix := with_top true (disturbed (dod fac c) (thlyr c))). assert (Lix : length ix = length (mixmass c)) by (unfold ix; now rewrite with_top_length, disturbed_length).
  assert (Ss : shaped nf (selected ix (mixmass c))) by (intros l Hl; apply S; exact (selected_in _ _ _ Hl)).
  rewrite (mixed_fraction nf); [|now apply layer_mean_length|exact Lix|exact S].
  destruct (selected ix (mixmass c)) as [|s0 sel] eqn:Es.
  - cbn [length Z.of_nat]. unfold fraction_mass at 2. cbn. change (inject_Z 0) with 0. ring.
  - rewrite nth_layer_mean by exact Ss. pose proof (count_pos (s0 :: sel)) as Hc. assert (Hne : s0 :: sel <> []) by discriminate. specialize (Hc Hne).
    field. lra.
Qed.
Lemma map2_in {A B C} (f : A -> B -> C) l : forall m x, In x (map2 f l m) -> exists a b, In a l /\ In b m /\ x = f a b.
Proof.
  induction l as [|a l IH]; intros [|b m] x H; cbn in H; try contradiction. destruct H as [<-|H]; [exists a, b; cbn; tauto|].
  destruct (IH m x H) as [u [v [H1 [H2 H3]]]]. exists u, v. cbn. tauto.
Qed.
Lemma mix_nonneg any nf fac c : shaped nf (mixmass c) -> nonneg_bed (mixmass c) -> all_nonneg (thlyr c) ->
  nonneg_bed (mix_cell any nf fac c).
Proof.
  intros S N Ht. destruct any; [|exact N]. rewrite mix_cell_eq. intros l Hl.
  set (ix := with_top true (disturbed (dod fac c) (thlyr c))) in *. set (f := mixfraction (dod fac c) (thlyr c)) in *.
  pose proof (mixfraction_range (dod fac c) (thlyr c) Ht) as [F0 F1]. fold f in F0, F1.
  assert (Ss : shaped nf (selected ix (mixmass c))) by (intros x Hx; apply S; exact (selected_in _ _ _ Hx)).
  assert (Ns : nonneg_bed (selected ix (mixmass c))) by (intros x Hx; apply N; exact (selected_in _ _ _ Hx)).
  apply map2_in in Hl. destruct Hl as [b [l0 [_ [Hl0 ->]]]]. destruct b; [|now apply N].
  apply nonneg_nth. intros k. rewrite nth_blend by (rewrite layer_mean_length by exact Ss; symmetry; now apply S).
  pose proof (proj1 (nonneg_nth _) (N l0 Hl0) k).
  assert (0 <= nth k (layer_mean nf (selected ix (mixmass c))) 0).
  { rewrite nth_layer_mean by exact Ss. destruct (selected ix (mixmass c)) as [|s0 sel] eqn:Es; [apply Qle_refl|].
    apply qdiv_nonneg; [now apply fraction_nonneg|apply count_pos; discriminate]. }
  assert (0 <= nth k (layer_mean nf (selected ix (mixmass c))) 0 * f) by (apply Qmult_le_0_compat; lra).
  assert (0 <= nth k l0 0 * (1 - f)) by (apply Qmult_le_0_compat; lra). lra.
Qed.
Lemma mix_layer_masses any nf fac c M : shaped nf (mixmass c) ->
  (forall l, In l (mixmass c) -> qsum l == M) -> forall l, In l (mix_cell any nf fac c) -> qsum l == M.
Proof.
  intros S H l Hl. destruct any; [|now apply H]. rewrite mix_cell_eq in Hl.
  set (ix := with_top true (disturbed (dod fac c) (thlyr c))) in *. set (f := mixfraction (dod fac c) (thlyr c)) in *.
  assert (Ss : shaped nf (selected ix (mixmass c))) by (intros x Hx; apply S; exact (selected_in _ _ _ Hx)).
  unfold mixed in Hl.
  assert (G : forall ix' m', (forall x, In x m' -> In x (mixmass c)) -> (selected ix (mixmass c) = [] -> forall b, In b ix' -> b = false) ->
     In l (map2 (fun (b : bool) l => if b then blend f (layer_mean nf (selected ix (mixmass c))) l else l) ix' m') -> qsum l == M).
  { intros ix' m' Hm Hsel Hi. apply map2_in in Hi. destruct Hi as [b [l0 [Hb [Hl0 ->]]]]. destruct b; [|apply H; now apply Hm].
    rewrite qsum_blend by (rewrite layer_mean_length by exact Ss; symmetry; apply S; now apply Hm).
    assert (Hne : selected ix (mixmass c) <> []) by (intros E; specialize (Hsel E _ Hb); discriminate).
    unfold layer_mean. rewrite (qsum_map_div (fun s => s)), map_id, qsum_column_sums by exact Ss.
    rewrite (H l0) by now apply Hm.
    assert (E : qsum (layer_masses (selected ix (mixmass c))) == inject_Z (Z.of_nat (length (selected ix (mixmass c)))) * M).
    { rewrite <- (qsum_map_const M). unfold layer_masses. apply qsum_map_ext. intros x Hx. apply H. exact (selected_in _ _ _ Hx). }
    rewrite E. pose proof (count_pos _ Hne). field. lra. }
  assert (K : forall ix' m' (l' : layer), selected ix' m' = [] -> In l' (map2 (fun (b : bool) l => if b then blend f (layer_mean nf (selected ix (mixmass c))) l else l) ix' m') -> In l' m').
  { clear. induction ix' as [|b ix' IH]; intros [|x m'] l' Hs Hi; cbn [map2] in Hi; try contradiction. rewrite selected_cons in Hs. destruct b; [discriminate|].
    destruct Hi as [<-|Hi]; [now left|]. right. now apply IH. }
  destruct (selected ix (mixmass c)) as [|s0 sel] eqn:Es.
  - apply H. apply (K ix (mixmass c) l Es). exact Hl.
  - apply (G ix (mixmass c)); [tauto|discriminate|exact Hl].
Qed.

Lemma cumsum_nth th : forall acc i, (i < length th)%nat -> nth i (cumsum acc th) 0 == acc + bottom i th.
Proof.
  unfold bottom. induction th as [|t th IH]; intros acc [|i] H; cbn in H; [lia|lia| |].
  - cbn [cumsum nth firstn]. unfold qsum. cbn. ring.
  - cbn [cumsum nth]. rewrite IH by lia. cbn [firstn]. unfold qsum. cbn [fold_right]. ring.
Qed.
Lemma disturbed_nth d th i : (i < length th)%nat -> nth i (disturbed d th) false = true <-> (bottom i th <= d /\ 0 < d).
Proof.
  intros Hi. unfold disturbed. rewrite (nth_map (fun c => Qle_bool c d && Qltb 0 d)) with (d := 0) by (rewrite cumsum_length; exact Hi).
  pose proof (cumsum_nth th 0 i Hi) as E. rewrite andb_true_iff.
  destruct (Qle_bool_spec (nth i (cumsum 0 th) 0) d) as [H1|H1], (Qltb_spec 0 d) as [H2|H2]; split; intros H; try tauto; try (split; lra);
    destruct H as [H3 H4]; try discriminate; exfalso; lra.
Qed.
Lemma bottom_mono th i : all_nonneg th -> bottom 0 th <= bottom i th.
Proof.
  intros H. unfold bottom. destruct th as [|t th]; [rewrite !firstn_nil; lra|]. cbn [firstn]. unfold qsum. cbn [fold_right].
  assert (0 <= fold_right Qplus 0 (firstn i th)); [|lra]. apply (qsum_nonneg (firstn i th)). intros x Hx. apply H. right. exact (firstn_in _ _ _ Hx).
Qed.
Lemma mixed_nth f mean ix m i l : nth_error m i = Some l -> nth i ix false = false -> length ix = length m ->
  nth_error (mixed f mean ix m) i = Some l.
Proof.
  intros Hm Hi L. assert (Hx : nth_error ix i = Some false).
  { assert (Hlt : (i < length ix)%nat) by (rewrite L; apply nth_error_Some; congruence). rewrite (nth_error_nth' ix false Hlt). now rewrite Hi. }
  unfold mixed. rewrite (map2_nth_error (fun (b : bool) l => if b then blend f mean l else l) ix m i false l Hx Hm). reflexivity.
Qed.
Lemma same_by_nth a b : length a = length b -> (forall k, nth k a 0 == nth k b 0) -> same a b.
Proof.
  revert b. induction a as [|x a IH]; intros [|y b] L H; try discriminate L; [constructor|].
  apply same_cons; [exact (H 0%nat)|]. apply IH; [cbn in L; lia|]. intros k. exact (H (S k)).
Qed.
(** Layers whose bottom is below the depth of disturbance stay as they are. *)
Lemma mix_below any nf fac c i l : length (thlyr c) = length (mixmass c) -> shaped nf (mixmass c) -> all_nonneg (thlyr c) ->
  nth_error (mixmass c) i = Some l -> dod fac c < bottom i (thlyr c) \/ dod fac c <= 0 ->
  exists l', nth_error (mix_cell any nf fac c) i = Some l' /\ same l' l.
Proof.
  intros L S Ht Hl Hd. destruct any; [|exists l; split; [exact Hl|apply same_refl]]. rewrite mix_cell_eq.
  assert (Hi : (i < length (thlyr c))%nat) by (rewrite L; apply nth_error_Some; congruence).
  set (d := dod fac c) in *. assert (Hn : nth i (disturbed d (thlyr c)) false = false).
  { apply not_true_iff_false. rewrite disturbed_nth by exact Hi. intros [H1 H2]. lra. }
  assert (Ld : length (disturbed d (thlyr c)) = length (mixmass c)) by (now rewrite disturbed_length).
  destruct i as [|i].
  - assert (Hall : forall j, (j < length (thlyr c))%nat -> nth j (disturbed d (thlyr c)) false = false).
    { intros j Hj. apply not_true_iff_false. rewrite disturbed_nth by exact Hj. intros [H1 H2]. pose proof (bottom_mono (thlyr c) j Ht). lra. }
    destruct (mixmass c) as [|top rest] eqn:Em; [discriminate Hl|]. injection Hl as <-.
    destruct (disturbed d (thlyr c)) as [|b ix] eqn:Ex; [discriminate Ld|]. cbn [with_top]. rewrite selected_cons.
    assert (Hsel : selected ix rest = []).
    { assert (Hf : forall b', In b' ix -> b' = false).
      { intros b' Hb'. destruct (In_nth ix b' false Hb') as [j [Hj <-]]. apply (Hall (Datatypes.S j)). cbn in Ld. rewrite L. cbn. lia. }
      clear -Hf. unfold selected. revert rest. induction ix as [|b ix IH]; intros [|x rest]; cbn; try reflexivity.
      rewrite (Hf b) by now left. cbn [fst]. apply IH. intros b' Hb'. apply Hf. now right. }
    rewrite Hsel. assert (Lt : length top = nf) by (apply S; now left).
    assert (St : shaped nf [top]) by (intros x [<-|[]]; exact Lt).
    exists (blend (mixfraction d (thlyr c)) (layer_mean nf [top]) top). split; [reflexivity|].
    assert (Lm : length (layer_mean nf [top]) = nf) by (now apply layer_mean_length).
    apply same_by_nth; [rewrite blend_length; lia|]. intros k. rewrite nth_blend by lia. rewrite nth_layer_mean by exact St.
    unfold fraction_mass, column, qsum. cbn [map fold_right length Z.of_nat Pos.of_succ_nat]. change (inject_Z 1) with 1. field.
  - exists l. split; [|apply same_refl]. apply mixed_nth; [exact Hl| |now rewrite with_top_length].
    destruct (disturbed d (thlyr c)) as [|b ix]; [reflexivity|]. cbn [with_top]. cbn [nth] in *. exact Hn.
Qed.
(** Fully mixed: all layers to the depth of disturbance get the same composition when it does not reach below the bed. *)
Lemma mix_uniform nf fac c i j li lj : length (thlyr c) = length (mixmass c) -> shaped nf (mixmass c) -> all_nonneg (thlyr c) ->
  0 < dod fac c -> dod fac c <= qsum (thlyr c) -> bottom i (thlyr c) <= dod fac c -> bottom j (thlyr c) <= dod fac c ->
  nth_error (mixmass c) i = Some li -> nth_error (mixmass c) j = Some lj ->
  exists mi mj, nth_error (mix_cell true nf fac c) i = Some mi /\ nth_error (mix_cell true nf fac c) j = Some mj /\ same mi mj.
Proof.
  intros L S Ht Hd Hq Hi Hj Ei Ej. rewrite mix_cell_eq. set (d := dod fac c) in *.
  set (ix := with_top true (disturbed d (thlyr c))). set (mean := layer_mean nf (selected ix (mixmass c))).
  assert (Hf : mixfraction d (thlyr c) == 1).
  { unfold mixfraction. destruct (Qltb_spec 0 d) as [_|H]; [|lra]. assert (1 <= qsum (thlyr c) / d) by (apply Qle_shift_div_l; lra).
    destruct (qmin_cases 1 (qsum (thlyr c) / d)) as [[-> _]|[-> H2]]; lra. }
  assert (Hx : forall n l, nth_error (mixmass c) n = Some l -> bottom n (thlyr c) <= d -> nth_error ix n = Some true).
  { intros n l Hn Hb. assert (Hlt : (n < length (thlyr c))%nat) by (rewrite L; apply nth_error_Some; congruence).
    assert (Hdn : nth n (disturbed d (thlyr c)) false = true) by (apply disturbed_nth; [exact Hlt|split; [exact Hb|exact Hd]]).
    pose proof (disturbed_length d (thlyr c)) as Ld. unfold ix. destruct (disturbed d (thlyr c)) as [|b bs]; [cbn in Ld; lia|].
    destruct n as [|n]; [reflexivity|]. cbn [with_top nth_error nth] in *. rewrite (nth_error_nth' bs false) by (cbn in Ld; lia). now rewrite Hdn. }
  assert (Ss : shaped nf (selected ix (mixmass c))) by (intros x H; apply S; exact (selected_in _ _ _ H)).
  assert (Lm : length mean = nf) by (now apply layer_mean_length).
  exists (blend (mixfraction d (thlyr c)) mean li), (blend (mixfraction d (thlyr c)) mean lj).
  assert (G : forall n l, nth_error (mixmass c) n = Some l -> bottom n (thlyr c) <= d -> nth_error (mixed (mixfraction d (thlyr c)) mean ix (mixmass c)) n = Some (blend (mixfraction d (thlyr c)) mean l)).
  { intros n l Hn Hb. unfold mixed. rewrite (map2_nth_error (fun (b : bool) l => if b then blend (mixfraction d (thlyr c)) mean l else l) ix (mixmass c) n true l (Hx n l Hn Hb) Hn). reflexivity. }
  split; [now apply G|]. split; [now apply G|].
  assert (Li : length li = nf) by (apply S; exact (nth_error_In _ _ Ei)). assert (Lj : length lj = nf) by (apply S; exact (nth_error_In _ _ Ej)).
  apply same_by_nth; [rewrite !blend_length; lia|]. intros k. rewrite !nth_blend by lia. rewrite Hf. ring.
Qed.

(** ** wet_bed_reset *)
Lemma reset_dry dt T zs zb zb0 z : wet_bed_reset true dt T zs zb zb0 = Ok z -> zs <= zb + (1 # 100) -> z = zb.
Proof.
  intros H1 H2. unfold wet_bed_reset in H1. destruct (Qeq_bool T 0); [discriminate|]. apply Ok_inj in H1.
  destruct (Qltb_spec (zb + (1 # 100)) zs); [lra|now symmetry].
Qed.
Lemma reset_wet dt T zs zb zb0 : ~ T == 0 -> zb + (1 # 100) < zs ->
  exists z, wet_bed_reset true dt T zs zb zb0 = Ok z /\ z - zb0 == (1 - dt / T) * (zb - zb0).
Proof.
  intros HT H. unfold wet_bed_reset. destruct (Qeq_bool_spec T 0); [contradiction|]. destruct (Qltb_spec (zb + (1 # 100)) zs); [|contradiction].
  eexists. split; [reflexivity|]. ring.
Qed.
Lemma reset_towards dt T zs zb zb0 z : 0 <= dt -> dt <= T -> 0 < T -> wet_bed_reset true dt T zs zb zb0 = Ok z -> towards zb zb0 z.
Proof.
  intros H0 H1 HT E. unfold wet_bed_reset in E. destruct (Qeq_bool_spec T 0); [lra|]. apply Ok_inj in E.
  assert (F0 : 0 <= dt / T) by (now apply qdiv_nonneg). assert (F1 : dt / T <= 1) by (apply Qle_shift_div_r; lra).
  destruct (Qltb_spec (zb + (1 # 100)) zs); subst z; unfold towards.
  - destruct (Qlt_le_dec zb zb0) as [Hz|Hz].
    + left. assert (0 <= (zb0 - zb) * (dt / T)) by (apply Qmult_le_0_compat; lra). assert (0 <= (zb0 - zb) * (1 - dt / T)) by (apply Qmult_le_0_compat; lra). lra.
    + right. assert (0 <= (zb - zb0) * (dt / T)) by (apply Qmult_le_0_compat; lra). assert (0 <= (zb - zb0) * (1 - dt / T)) by (apply Qmult_le_0_compat; lra). lra.
  - destruct (Qlt_le_dec zb zb0); [left|right]; lra.
Qed.
(** A sequence of resets with time steps and water levels. *)
Fixpoint resets (T zb0 : Q) (steps : list (Q * Q)) (zb : Q) : result Q :=
  match steps with
  | [] => Ok zb
  | (dt, zs) :: r => bind (wet_bed_reset true dt T zs zb zb0) (resets T zb0 r)
  end.
Lemma resets_towards T zb0 : 0 < T -> forall steps zb z, (forall s, In s steps -> 0 <= fst s /\ fst s <= T) ->
  resets T zb0 steps zb = Ok z -> towards zb zb0 z.
Proof.
  intros HT. induction steps as [|[dt zs] steps IH]; intros zb z H E; cbn [resets] in E.
  - apply Ok_inj in E. subst z. unfold towards. destruct (Qlt_le_dec zb zb0); [left|right]; lra.
  - destruct (wet_bed_reset true dt T zs zb zb0) as [z1|e] eqn:E1; cbn [bind] in E; [|discriminate].
    destruct (H (dt, zs) (or_introl eq_refl)) as [H0 H1]. cbn [fst] in H0, H1.
    pose proof (reset_towards dt T zs zb zb0 z1 H0 H1 HT E1) as G1.
    assert (G2 : towards z1 zb0 z) by (apply (IH z1 z); [intros s Hs; apply H; now right|exact E]).
    unfold towards in *. destruct G1 as [G1|G1], G2 as [G2|G2]; [left|left|right|right]; lra.
Qed.
(** With equal steps, always under water, the distance shrinks by a fixed factor. *)
Lemma resets_factor T zb0 dt : ~ T == 0 -> forall steps zb z, (forall s, In s steps -> fst s = dt) -> resets T zb0 steps zb = Ok z ->
  (forall n zb', resets T zb0 (firstn n steps) zb = Ok zb' -> forall s, nth_error steps n = Some s -> zb' + (1 # 100) < snd s) ->
  z - zb0 == qpow (1 - dt / T) (length steps) * (zb - zb0).
Proof.
  intros HT. induction steps as [|[dt' zs] steps IH]; intros zb z H E W; cbn [resets] in E.
  - apply Ok_inj in E. subst z. cbn. ring.
  - assert (Hdt : dt' = dt) by (exact (H (dt', zs) (or_introl eq_refl))). subst dt'.
    assert (W0 : zb + (1 # 100) < zs) by (exact (W 0%nat zb eq_refl (dt, zs) eq_refl)).
    destruct (reset_wet dt T zs zb zb0 HT W0) as [z1 [E1 D1]]. rewrite E1 in E. cbn [bind] in E.
    assert (G : z - zb0 == qpow (1 - dt / T) (length steps) * (z1 - zb0)).
    { apply IH; [intros s Hs; apply H; now right|exact E|]. intros n zb' Hr s Hs. apply (W (Datatypes.S n) zb'); [|exact Hs].
      cbn [firstn resets]. rewrite E1. exact Hr. }
    rewrite G, D1. cbn [length qpow]. ring.
Qed.

(** ** initialize *)
Lemma qsum_divided gs : ~ qsum gs == 0 -> qsum (divided gs) == 1.
Proof. intros H. unfold divided. rewrite (qsum_map_div (fun x => x)), map_id. field. exact H. Qed.
Lemma fill_layer_ok rhog por th nf gs : length gs = nf -> exists l, fill_layer rhog por th nf (divided gs) = Ok l /\ length l = nf /\
  (forall k, nth k l 0 == rhog * (1 - por) * th * (nth k gs 0 / qsum gs)) /\ (~ qsum gs == 0 -> qsum l == rhog * (1 - por) * th).
Proof.
  intros L. unfold fill_layer. assert (Ld : length (divided gs) = nf) by (unfold divided; now rewrite map_length).
  rewrite Ld, Nat.ltb_irrefl. assert (Ef : firstn nf (divided gs) = divided gs) by (rewrite <- Ld; apply firstn_all). rewrite Ef. eexists. split; [reflexivity|]. split; [now rewrite map_length|]. split.
  - intros k. destruct (Nat.lt_ge_cases k nf) as [Hk|Hk].
    + rewrite (nth_map _ (divided gs)) with (d := 0) by lia. unfold divided. rewrite (nth_map (fun g => g / qsum gs)) with (d := 0) by lia. reflexivity.
    + rewrite !nth_overflow by (rewrite ?map_length; lia). unfold Qdiv. ring.
  - intros Hz. change (map (fun g => rhog * (1 - por) * th * g) (divided gs)) with (vscale (rhog * (1 - por) * th) (divided gs)).
    rewrite qsum_vscale, qsum_divided by exact Hz. ring.
Qed.
Lemma mapres_ok {A B} (f : A -> result B) l : (forall a, In a l -> exists b, f a = Ok b) ->
  exists bs, mapres f l = Ok bs /\ Forall2 (fun a b => f a = Ok b) l bs.
Proof.
  induction l as [|a l IH]; intros H; [exists []; split; [reflexivity|constructor]|].
  destruct (H a (or_introl eq_refl)) as [b Hb]. destruct IH as [bs [E F]]; [intros x Hx; apply H; now right|].
  exists (b :: bs). cbn [mapres]. rewrite Hb, E. cbn [bind]. split; [reflexivity|now constructor].
Qed.
Lemma mapres2_ok {A B C} (f : A -> B -> result C) l : forall m, length l = length m -> (forall a b, In b m -> exists c, f a b = Ok c) ->
  exists cs, mapres2 f l m = Ok cs /\ length cs = length l /\ forall i a b, nth_error l i = Some a -> nth_error m i = Some b -> exists c, nth_error cs i = Some c /\ f a b = Ok c.
Proof.
  induction l as [|a l IH]; intros [|b m] L H; try discriminate L.
  - exists []. split; [reflexivity|]. split; [reflexivity|]. intros [|i] x y Hx; discriminate.
  - destruct (H a b (or_introl eq_refl)) as [c Hc]. destruct (IH m) as [cs [E [Lc F]]]; [cbn in L; lia|intros x y Hy; apply H; now right|].
    exists (c :: cs). cbn [mapres2]. rewrite Hc, E. cbn [bind]. split; [reflexivity|]. split; [cbn; lia|].
    intros [|i] x y Hx Hy; cbn [nth_error] in *; [injection Hx as <-; injection Hy as <-; now exists c|now apply F].
Qed.
(** One distribution for all layers. *)
Lemma init_uniform rhog por nf nx x th isint d bedcomp : length d = nf -> ~ qsum d == 0 -> isint = true \/ bedcomp = None ->
  exists b, initialize rhog por nf nx x th (Dist1 isint d) bedcomp = Ok b /\ length b = length th /\
    forall i t, nth_error th i = Some t -> exists l, nth_error b i = Some l /\ length l = nf /\ qsum l == rhog * (1 - por) * t /\
      forall k, nth k l 0 == rhog * (1 - por) * t * (nth k d 0 / qsum d).
Proof.
  intros L Hz Hb.
  assert (G : exists b, mapres (fun t => fill_layer rhog por t nf (divided d)) th = Ok b /\ length b = length th /\
    forall i t, nth_error th i = Some t -> exists l, nth_error b i = Some l /\ length l = nf /\ qsum l == rhog * (1 - por) * t /\
      forall k, nth k l 0 == rhog * (1 - por) * t * (nth k d 0 / qsum d)).
  { destruct (mapres_ok (fun t => fill_layer rhog por t nf (divided d)) th) as [b [E F]].
    - intros t _. destruct (fill_layer_ok rhog por t nf d L) as [l [E _]]. now exists l.
    - exists b. split; [exact E|]. split; [symmetry; clear -F; induction F; cbn; congruence|].
      clear E. induction F as [|t l th b Hl F IH]; intros i t' Hi; [destruct i; discriminate|]. destruct i as [|i]; [|now apply IH].
      injection Hi as <-. exists l. destruct (fill_layer_ok rhog por t nf d L) as [l' [E' [H1 [H2 H3]]]]. rewrite Hl in E'. apply Ok_inj in E'. subst l'.
      split; [reflexivity|]. split; [exact H1|]. split; [now apply H3|exact H2]. }
  unfold initialize. destruct isint; [exact G|]. destruct Hb as [Hb|Hb]; [discriminate|]. rewrite Hb. exact G.
Qed.
(** A distribution per layer. *)
Lemma init_layered rhog por nf nx x th rows : length rows = length th -> (forall r, In r rows -> length r = nf /\ ~ qsum r == 0) ->
  exists b, initialize rhog por nf nx x th (Dist2 false rows) None = Ok b /\ length b = length th /\
    forall i t r, nth_error th i = Some t -> nth_error rows i = Some r -> exists l, nth_error b i = Some l /\ length l = nf /\
      qsum l == rhog * (1 - por) * t /\ forall k, nth k l 0 == rhog * (1 - por) * t * (nth k r 0 / qsum r).
Proof.
  intros L H. unfold initialize. rewrite L, Nat.eqb_refl.
  destruct (mapres2_ok (fun t row => fill_layer rhog por t nf (divided row)) th rows) as [b [E [Lb F]]]; [lia| |].
  - intros t r Hr. destruct (H r Hr) as [Lr _]. destruct (fill_layer_ok rhog por t nf r Lr) as [l [El _]]. now exists l.
  - exists b. split; [exact E|]. split; [exact Lb|]. intros i t r Ht Hr. destruct (F i t r Ht Hr) as [l [H1 H2]].
    destruct (H r (nth_error_In _ _ Hr)) as [Lr Zr]. destruct (fill_layer_ok rhog por t nf r Lr) as [l' [E' [K1 [K2 K3]]]].
    rewrite H2 in E'. apply Ok_inj in E'. subst l'. exists l. split; [exact H1|]. split; [exact K1|]. split; [now apply K3|exact K2].
Qed.
(** A composition file is used as it is. *)
Lemma init_file rhog por nf nx x th g b : is_int g = false -> initialize rhog por nf nx x th g (Some b) = Ok b.
Proof. destruct g as [[|] d|[|] d]; cbn; congruence. Qed.

(** ** average_change *)
(** The yearly change is the change after as many such steps as there are in a year of 365.25 days of model time. *)
Lemma year_of_steps zb' zb dt accfac n : 0 < dt -> 0 < accfac -> n * (dt * accfac) == 31557600 -> dzbyear zb' zb dt accfac == n * (zb' - zb).
Proof.
  intros H1 H2 Hn. unfold dzbyear. assert (~ dt * accfac == 0). { intros E. rewrite E in Hn. lra. }
  assert (En : n == 31557600 / (dt * accfac)) by (rewrite <- Hn; field; split; lra). rewrite En. field. split; lra.
Qed.
Lemma average_between zb' zb dt accfac T avg0 : 0 < T -> 0 <= dt * accfac -> dt * accfac <= T ->
  towards avg0 (dzbyear zb' zb dt accfac) (dzbavg zb' zb dt accfac T avg0).
Proof.
  intros HT H0 H1. unfold dzbavg. set (n := dt * accfac / T). set (y := dzbyear zb' zb dt accfac).
  assert (N0 : 0 <= n) by (now apply qdiv_nonneg). assert (N1 : n <= 1) by (apply Qle_shift_div_r; lra). unfold towards.
  destruct (Qlt_le_dec avg0 y) as [Hy|Hy].
  - left. assert (0 <= n * (y - avg0)) by (apply Qmult_le_0_compat; lra). assert (0 <= (1 - n) * (y - avg0)) by (apply Qmult_le_0_compat; lra). lra.
  - right. assert (0 <= n * (avg0 - y)) by (apply Qmult_le_0_compat; lra). assert (0 <= (1 - n) * (avg0 - y)) by (apply Qmult_le_0_compat; lra). lra.
Qed.
