(** Parameters that are filled in from other parameters. *)
From Coq Require Import QArith Lia.
From Verif Require Import Base Config_Model Config_Spec Config_Proofs Derived_Spec.

Lemma given_read files pf d ld ls k v p1 :
  given files pf d ld ls k v -> read_lines files pf (if ld then d else []) ls = Ok p1 -> dget k p1 = Some v.
Proof.
  intros [[raw [L P]]|[N [-> D]]] H.
  - destruct (read_lines_last _ _ _ _ _ _ _ H L) as [v' [P' G]]. congruence.
  - rewrite (read_lines_never _ _ _ _ _ k H N). exact D.
Qed.

Lemma truthy_unset v : unset v -> truthy v = Ok false.
Proof.
  assert (Q0 : forall q, (q == 0)%Q -> Qeq_bool q 0 = true) by (intros q E; now apply Qeq_bool_iff).
  intros [H|[->|[x [-> H]]]]; [|reflexivity|]; inversion H; subst; cbn; try reflexivity; now rewrite Q0.
Qed.
Lemma truthy_set v : is_set v -> truthy v = Ok true.
Proof.
  assert (Q0 : forall q, ~ (q == 0)%Q -> Qeq_bool q 0 = false).
  { intros q E. destruct (Qeq_bool q 0) eqn:B; [|reflexivity]. apply Qeq_bool_iff in B. contradiction. }
  assert (Z0 : forall n, n <> 0%Z -> (n =? 0)%Z = false) by (intros; now apply Z.eqb_neq).
  intros [H|[x [-> H]]]; inversion H; subst; cbn; try reflexivity;
    (rewrite ?Q0, ?Z0 by assumption; try reflexivity); destruct s; [contradiction|reflexivity|contradiction|reflexivity].
Qed.
Lemma truthy_ambiguous v : ambiguous v -> truthy v = Raise ValueError.
Proof. intros [[t ->]|[x [y [l ->]]]]; [reflexivity|]. cbn. destruct x; reflexivity. Qed.

Lemma makeiterable_array v w : array_of v w <-> makeiterable v = w.
Proof.
  split; [intros H; now inversion H|]. intros <-. destruct v; cbn; constructor.
Qed.
Lemma num_of_number v q : number v q -> num_of v = Ok q.
Proof. intros H; now inversion H. Qed.

Lemma Qtrunc_part x : integer_part x (Qtrunc x).
Proof.
  unfold integer_part, Qtrunc. destruct x as [n d]. cbn [Qnum Qden].
  unfold Qle, Qlt, inject_Z. cbn [Qnum Qden].
  assert (P : (0 < Zpos d)%Z) by reflexivity. generalize dependent (Zpos d). intros z P.
  pose proof (Z.quot_rem' n z) as E.
  split; intros H.
  - assert (N : (0 <= n)%Z) by lia. pose proof (Z.rem_bound_pos n z N P). nia.
  - assert (N : (n <= 0)%Z) by lia. assert (B := Z.rem_bound_pos (- n) z ltac:(lia) P).
    rewrite Z.rem_opp_l in B by lia. nia.
Qed.

(** The stages after reading, each as a description of all parameters. *)
Lemma grain_stage p q : finish_grain p = Ok q ->
  (forall k, k <> txt "grain_dist" -> k <> txt "grain_size" -> dget k q = dget k p) /\
  (forall k v w, dget (txt "grain_dist") p = Some w -> k = txt "grain_dist" \/ k = txt "grain_size" ->
     dget k p = Some v -> dget k q = Some (makeiterable v)).
Proof.
  unfold finish_grain. destruct (dget (txt "grain_dist") p) as [w|] eqn:G; intros H.
  - inv_bind H. inversion H; subst q. clear H. unfold lookup in E.
    rewrite dget_dset_other in E by discriminate. destruct (dget (txt "grain_size") p) as [g|] eqn:S; [|discriminate].
    inversion E; subst a. split.
    + intros k A B. rewrite !dget_dset_other by assumption. reflexivity.
    + intros k v w' _ [->| ->] D.
      * rewrite dget_dset_other by discriminate. rewrite dget_dset_same. congruence.
      * rewrite dget_dset_same. congruence.
  - inversion H; subst q. split; [reflexivity|]. intros; discriminate.
Qed.

Lemma output_stage nc p q : finish_output nc p = Ok q ->
  (forall k, k <> txt "output_file" -> dget k q = dget k p) /\
  (forall v, dget (txt "output_file") p = Some v ->
     ~ ambiguous v /\ (is_set v -> dget (txt "output_file") q = Some v) /\
     (unset v -> dget (txt "output_file") q = Some (VStr nc))).
Proof.
  unfold finish_output. destruct (dget (txt "output_file") p) as [w|] eqn:G; intros H.
  - inv_bind H. split.
    + intros k A. destruct a; inversion H; subst; [reflexivity|]. now apply dget_dset_other.
    + intros v Ev. inversion Ev; subst w. split; [|split]; intros A.
      * rewrite (truthy_ambiguous _ A) in E. discriminate.
      * rewrite (truthy_set _ A) in E. inversion E; subst a. inversion H; subst. exact G.
      * rewrite (truthy_unset _ A) in E. inversion E; subst a. inversion H; subst. apply dget_dset_same.
  - inversion H; subst q. split; [reflexivity|]. intros; discriminate.
Qed.

Lemma h_stage p q : finish_h p = Ok q ->
  (forall k, k <> txt "h" -> dget k q = dget k p) /\
  (forall v, dget (txt "h") p = Some v ->
     ~ ambiguous v /\ (is_set v -> dget (txt "h") q = Some v) /\
     (unset v -> exists z, dget (txt "z") p = Some z /\ dget (txt "h") q = Some z)).
Proof.
  unfold finish_h. destruct (dget (txt "h") p) as [w|] eqn:G; intros H.
  - inv_bind H. split.
    + intros k A. destruct a; [inversion H; subst; reflexivity|]. inv_bind H. inversion H; subst. now apply dget_dset_other.
    + intros v Ev. inversion Ev; subst w. split; [|split]; intros A.
      * rewrite (truthy_ambiguous _ A) in E. discriminate.
      * rewrite (truthy_set _ A) in E. inversion E; subst a. inversion H; subst. exact G.
      * rewrite (truthy_unset _ A) in E. inversion E; subst a. inv_bind H. inversion H; subst.
        unfold lookup in E0. destruct (dget (txt "z") p) as [z|]; [|discriminate]. inversion E0; subst a.
        exists z. split; [reflexivity|]. apply dget_dset_same.
  - inversion H; subst q. split; [reflexivity|]. intros; discriminate.
Qed.

Lemma fences_stage p q : finish_fences p = Ok q ->
  (forall k, k <> txt "process_fences" -> dget k q = dget k p) /\
  (forall v, dget (txt "process_fences") p = Some v ->
     ~ ambiguous v /\ (is_set v -> dget (txt "process_fences") q = Some v) /\
     (unset v -> dget (txt "process_fences") q = Some (VBool false))).
Proof.
  unfold finish_fences. destruct (dget (txt "process_fences") p) as [w|] eqn:G; intros H.
  - inv_bind H. split.
    + intros k A. destruct a; inversion H; subst; [reflexivity|]. now apply dget_dset_other.
    + intros v Ev. inversion Ev; subst w. split; [|split]; intros A.
      * rewrite (truthy_ambiguous _ A) in E. discriminate.
      * rewrite (truthy_set _ A) in E. inversion E; subst a. inversion H; subst. exact G.
      * rewrite (truthy_unset _ A) in E. inversion E; subst a. inversion H; subst. apply dget_dset_same.
  - inversion H; subst q. split; [reflexivity|]. intros; discriminate.
Qed.

Lemma nsave_stage p q : finish_nsave p = Ok q ->
  (forall k, k <> txt "nsavetimes" -> dget k q = dget k p) /\
  (forall v, dget (txt "nsavetimes") p = Some v ->
     ~ ambiguous v /\ (is_set v -> dget (txt "nsavetimes") q = Some v) /\
     (unset v -> forall i t x y, dget (txt "dzb_interval") p = Some i -> dget (txt "dt") p = Some t ->
        number i x -> number t y ->
        ~ (y == 0)%Q /\ exists n, integer_part (x / y) n /\ dget (txt "nsavetimes") q = Some (VInt n))).
Proof.
  unfold finish_nsave. destruct (dget (txt "nsavetimes") p) as [w|] eqn:G; intros H.
  - inv_bind H. split.
    + intros k A. destruct a; [inversion H; subst; reflexivity|].
      inv_bind H. inv_bind H. inv_bind H. inv_bind H. destruct (Qeq_bool a2 0); [discriminate|].
      inversion H; subst. now apply dget_dset_other.
    + intros v Ev. inversion Ev; subst w. split; [|split]; intros A.
      * rewrite (truthy_ambiguous _ A) in E. discriminate.
      * rewrite (truthy_set _ A) in E. inversion E; subst a. inversion H; subst. exact G.
      * intros i t x y Gi Gt Ni Nt.
        rewrite (truthy_unset _ A) in E. inversion E; subst a. unfold lookup in H. rewrite Gi, Gt in H.
        cbn [bind] in H. rewrite (num_of_number _ _ Ni), (num_of_number _ _ Nt) in H. cbn [bind] in H.
        destruct (Qeq_bool y 0) eqn:Y; [discriminate|]. split.
        { intros Z. apply Qeq_bool_iff in Z. congruence. }
        inversion H; subst. exists (Qtrunc (x / y)). split; [apply Qtrunc_part|apply dget_dset_same].
  - inversion H; subst q. split; [reflexivity|]. intros; discriminate.
Qed.

(** All stages together: what becomes of the parameters as read. *)
Lemma stages files nc d ls pf ld p : read_configfile files nc d (Some ls) pf ld = Ok p ->
  exists p1, read_lines files pf (if ld then d else []) ls = Ok p1 /\
  (forall k v w, dget (txt "grain_dist") p1 = Some w -> k = txt "grain_dist" \/ k = txt "grain_size" ->
     dget k p1 = Some v -> dget k p = Some (makeiterable v)) /\
  (forall k v, In k filled_in -> dget k p1 = Some v -> ~ ambiguous v /\ (is_set v -> dget k p = Some v)) /\
  (forall v, dget (txt "output_file") p1 = Some v -> unset v -> dget (txt "output_file") p = Some (VStr nc)) /\
  (forall v, dget (txt "h") p1 = Some v -> unset v -> exists z, dget (txt "z") p1 = Some z /\ dget (txt "h") p = Some z) /\
  (forall v, dget (txt "process_fences") p1 = Some v -> unset v -> dget (txt "process_fences") p = Some (VBool false)) /\
  (forall v, dget (txt "nsavetimes") p1 = Some v -> unset v ->
     forall i t x y, dget (txt "dzb_interval") p1 = Some i -> dget (txt "dt") p1 = Some t ->
        number i x -> number t y ->
        ~ (y == 0)%Q /\ exists n, integer_part (x / y) n /\ dget (txt "nsavetimes") p = Some (VInt n)).
Proof.
  unfold read_configfile. intros H.
  inv_bind H. inv_bind H. inv_bind H. inv_bind H. inv_bind H.
  rename a into p1, a0 into p2, a1 into p3, a2 into p4, a3 into p5.
  apply grain_stage in E0. apply output_stage in E1. apply h_stage in E2. apply fences_stage in E3.
  apply nsave_stage in H. destruct E0 as [F1 G1], E1 as [F2 G2], E2 as [F3 G3], E3 as [F4 G4], H as [F5 G5].
  exists p1. split; [exact E|]. split; [|split; [|split; [|split; [|split]]]].
  - intros k v w W K D. specialize (G1 k v w W K D). destruct K as [->| ->];
      rewrite F5, F4, F3, F2 by discriminate; exact G1.
  - intros k v [<-|[<-|[<-|[<-|[]]]]] D.
    + rewrite <- F1 in D by discriminate. destruct (G2 v D) as [A [B _]]. split; [exact A|].
      intros S. rewrite F5, F4, F3 by discriminate. exact (B S).
    + rewrite <- F1, <- F2 in D by discriminate. destruct (G3 v D) as [A [B _]]. split; [exact A|].
      intros S. rewrite F5, F4 by discriminate. exact (B S).
    + rewrite <- F1, <- F2, <- F3 in D by discriminate. destruct (G4 v D) as [A [B _]]. split; [exact A|].
      intros S. rewrite F5 by discriminate. exact (B S).
    + rewrite <- F1, <- F2, <- F3, <- F4 in D by discriminate. destruct (G5 v D) as [A [B _]]. split; assumption.
  - intros v D U. rewrite <- F1 in D by discriminate. destruct (G2 v D) as [_ [_ B]].
    rewrite F5, F4, F3 by discriminate. exact (B U).
  - intros v D U. rewrite <- F1, <- F2 in D by discriminate. destruct (G3 v D) as [_ [_ B]].
    rewrite F5, F4 by discriminate. destruct (B U) as [z [Z1 Z2]]. exists z.
    rewrite F2, F1 in Z1 by discriminate. split; assumption.
  - intros v D U. rewrite <- F1, <- F2, <- F3 in D by discriminate. destruct (G4 v D) as [_ [_ B]].
    rewrite F5 by discriminate. exact (B U).
  - intros v D U i t x y Di Dt. rewrite <- F1, <- F2, <- F3, <- F4 in D by discriminate.
    destruct (G5 v D) as [_ [_ B]]. apply B; [exact U| |]; rewrite F4, F3, F2, F1 by discriminate; assumption.
Qed.

Lemma c152_kept files nc d ls pf ld p k v :
  read_configfile files nc d (Some ls) pf ld = Ok p -> In k filled_in ->
  given files pf d ld ls k v -> is_set v -> dget k p = Some v.
Proof.
  intros H K G S. destruct (stages _ _ _ _ _ _ _ H) as [p1 [E [_ [A _]]]].
  exact (proj2 (A k v K (given_read _ _ _ _ _ _ _ _ G E)) S).
Qed.
Lemma c152_output files nc d ls pf ld p v :
  read_configfile files nc d (Some ls) pf ld = Ok p ->
  given files pf d ld ls (txt "output_file") v -> unset v -> dget (txt "output_file") p = Some (VStr nc).
Proof.
  intros H G S. destruct (stages _ _ _ _ _ _ _ H) as [p1 [E [_ [_ [A _]]]]].
  exact (A v (given_read _ _ _ _ _ _ _ _ G E) S).
Qed.
Lemma c152_h files nc d ls pf ld p v z :
  read_configfile files nc d (Some ls) pf ld = Ok p ->
  given files pf d ld ls (txt "h") v -> given files pf d ld ls (txt "z") z -> unset v ->
  dget (txt "h") p = Some z.
Proof.
  intros H G GZ S. destruct (stages _ _ _ _ _ _ _ H) as [p1 [E [_ [_ [_ [A _]]]]]].
  destruct (A v (given_read _ _ _ _ _ _ _ _ G E) S) as [z' [Z1 Z2]].
  rewrite (given_read _ _ _ _ _ _ _ _ GZ E) in Z1. congruence.
Qed.
Lemma c152_fences files nc d ls pf ld p v :
  read_configfile files nc d (Some ls) pf ld = Ok p ->
  given files pf d ld ls (txt "process_fences") v -> unset v -> dget (txt "process_fences") p = Some (VBool false).
Proof.
  intros H G S. destruct (stages _ _ _ _ _ _ _ H) as [p1 [E [_ [_ [_ [_ [A _]]]]]]].
  exact (A v (given_read _ _ _ _ _ _ _ _ G E) S).
Qed.
Lemma c152_nsavetimes files nc d ls pf ld p v i t x y :
  read_configfile files nc d (Some ls) pf ld = Ok p ->
  given files pf d ld ls (txt "nsavetimes") v -> unset v ->
  given files pf d ld ls (txt "dzb_interval") i -> number i x ->
  given files pf d ld ls (txt "dt") t -> number t y ->
  ~ (y == 0)%Q /\ exists n, integer_part (x / y) n /\ dget (txt "nsavetimes") p = Some (VInt n).
Proof.
  intros H G S Gi Ni Gt Nt. destruct (stages _ _ _ _ _ _ _ H) as [p1 [E [_ [_ [_ [_ [_ A]]]]]]].
  exact (A v (given_read _ _ _ _ _ _ _ _ G E) S i t x y (given_read _ _ _ _ _ _ _ _ Gi E) (given_read _ _ _ _ _ _ _ _ Gt E) Ni Nt).
Qed.
Lemma c152_grain files nc d ls pf ld p w k v :
  read_configfile files nc d (Some ls) pf ld = Ok p ->
  given files pf d ld ls (txt "grain_dist") w -> k = txt "grain_dist" \/ k = txt "grain_size" ->
  given files pf d ld ls k v -> exists l, array_of v l /\ dget k p = Some l.
Proof.
  intros H GW K G. destruct (stages _ _ _ _ _ _ _ H) as [p1 [E [A _]]].
  exists (makeiterable v). split; [now apply makeiterable_array|].
  exact (A k v w (given_read _ _ _ _ _ _ _ _ GW E) K (given_read _ _ _ _ _ _ _ _ G E)).
Qed.
Lemma c152_ambiguous files nc d ls pf ld k v :
  In k filled_in -> given files pf d ld ls k v -> ambiguous v ->
  forall p, read_configfile files nc d (Some ls) pf ld <> Ok p.
Proof.
  intros K G A p H. destruct (stages _ _ _ _ _ _ _ H) as [p1 [E [_ [B _]]]].
  exact (proj1 (B k v K (given_read _ _ _ _ _ _ _ _ G E)) A).
Qed.

(** The steps between the moments at which the vegetation is updated fill the interval. *)
Lemma integer_part_unique x n m : integer_part x n -> integer_part x m -> n = m.
Proof.
  intros [A B] [C D]. destruct (Qlt_le_dec x 0) as [L|L].
  - destruct (B (Qlt_le_weak _ _ L)) as [B1 B2], (D (Qlt_le_weak _ _ L)) as [D1 D2].
    assert (E1 := Qlt_le_trans _ _ _ B1 D2). assert (E2 := Qlt_le_trans _ _ _ D1 B2).
    rewrite <- Zlt_Qlt in E1, E2. lia.
  - destruct (A L) as [B1 B2], (C L) as [D1 D2].
    assert (E1 := Qle_lt_trans _ _ _ B1 D2). assert (E2 := Qle_lt_trans _ _ _ D1 B2).
    rewrite <- Zlt_Qlt in E1, E2. lia.
Qed.
