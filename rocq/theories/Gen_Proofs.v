(** Lemmas about the wind generator. *)
From Verif Require Import Base Num Solver_Model Linear Gen_Model Gen_Spec.
From Coq Require Import Lia Lqa Qround Qfield Qpower.
Open Scope Q_scope.

Lemma closeness_sym x y : closeness x y = closeness y x.
Proof. unfold closeness. rewrite Nat.max_comm, Nat.min_comm. auto. Qed.
Lemma half_pos k : 0 < (1 # 2) ^ Z.of_nat k.
Proof.
  assert (A : 0 <= (1 # 2) ^ Z.of_nat k) by (apply Qpower_pos; lra). assert (B : ~ (1 # 2) ^ Z.of_nat k == 0) by (apply Qpower_not_0; lra). lra.
Qed.
Lemma closeness_pos x y : 0 < closeness x y.
Proof. apply half_pos. Qed.
Lemma sumn_pos n v : (0 < n)%nat -> (forall i, (i < n)%nat -> 0 < v i) -> 0 < sumn n v.
Proof.
  intros N P. apply Qle_lt_trans with (sumn n (fun _ => 0)); [rewrite sumn_zero; [lra|intros; lra]|]. apply sumn_lt with 0%nat; auto. intros. apply Qlt_le_weak; auto.
Qed.
Lemma spread_get n p x : (x < n)%nat -> spread n n p x = sumn n (fun y => closeness x y * p y).
Proof. intros. unfold spread. rewrite memo_get, Nat.min_id by auto. auto. Qed.
Lemma spread_pos n p x : (x < n)%nat -> positive_below n p -> 0 < spread n n p x.
Proof. intros X P. rewrite spread_get by auto. apply sumn_pos; [lia|]. intros. apply mul_pos; auto. apply closeness_pos. Qed.
Lemma chance_pos n p x y : (x < n)%nat -> (y < n)%nat -> positive_below n p -> 0 < chance n p x y.
Proof.
  intros X Y P. unfold chance. pose proof (spread_pos n p x X P). apply mul_pos; [|apply mul_pos; auto using closeness_pos].
  apply Qlt_shift_div_l; lra.
Qed.
Lemma chance_total n p x : (x < n)%nat -> positive_below n p -> sumn n (chance n p x) == 1.
Proof.
  intros X P. pose proof (spread_pos n p x X P). unfold chance. rewrite sumn_scale, <- spread_get by auto. field. lra.
Qed.
Lemma weighted_get n p x : (x < n)%nat -> weighted n n p x == p x * spread n n p x.
Proof.
  intros X. unfold weighted. cbv zeta. rewrite memo_get, Nat.min_id by auto. etransitivity; [apply (sumn_single n x); auto; intros i I N; destruct (Nat.eqb_spec x i); [subst; contradiction|ring]|]. cbv beta.
  rewrite Nat.eqb_refl. reflexivity.
Qed.
Lemma weighted_pos n p : (0 < n)%nat -> positive_below n p -> 0 < sumn n (weighted n n p).
Proof. intros N P. apply sumn_pos; auto. intros i I. rewrite weighted_get by auto. apply mul_pos; auto. apply spread_pos; auto. Qed.
Lemma realised_get n m p x : (x < m)%nat -> realised n m p x = weighted n m p x / sumn m (weighted n m p).
Proof. intros. unfold realised. cbv zeta. rewrite memo_get by auto. auto. Qed.
(** Detailed balance. *)
Lemma balance n p x y : (x < n)%nat -> (y < n)%nat -> positive_below n p -> realised n n p x * chance n p x y == realised n n p y * chance n p y x.
Proof.
  intros X Y P. rewrite !realised_get, !weighted_get by auto. unfold chance. rewrite (closeness_sym y x).
  pose proof (spread_pos n p x X P). pose proof (spread_pos n p y Y P). pose proof (weighted_pos n p ltac:(lia) P). field. repeat split; lra.
Qed.
Lemma kept n p : positive_below n p -> stationary n (chance n p) (realised n n p).
Proof.
  intros P y Y. rewrite (sumn_ext n _ (fun x => realised n n p y * chance n p y x)) by (intros; apply balance; auto).
  rewrite sumn_scale, chance_total by auto. ring.
Qed.
Lemma realised_total n m p : ~ sumn m (weighted n m p) == 0 -> sumn m (realised n m p) == 1.
Proof.
  intros P. rewrite (sumn_ext m _ (fun x => / sumn m (weighted n m p) * weighted n m p x)).
  - rewrite sumn_scale. field. auto.
  - intros i I. rewrite realised_get by auto. unfold Qdiv. ring.
Qed.
Lemma realised_distribution n p : (0 < n)%nat -> positive_below n p -> is_distribution n (realised n n p).
Proof.
  intros N P. pose proof (weighted_pos n p N P). split; [|apply realised_total; lra]. intros i I. rewrite realised_get, weighted_get by auto.
  apply Qle_shift_div_l; auto. ring_simplify. apply Qlt_le_weak, mul_pos; auto. apply spread_pos; auto.
Qed.
Lemma requested_total m w : ~ sumn m w == 0 -> sumn m (requested m w) == 1.
Proof.
  intros P. rewrite (sumn_ext m _ (fun x => / sumn m w * w x)).
  - rewrite sumn_scale. field. auto.
  - intros i I. unfold requested. rewrite memo_get by auto. unfold Qdiv. ring.
Qed.
Lemma refine_total n m p0 p : ~ sumn m (weighted n m p) == 0 -> sumn m p0 == 1 -> sumn m p == 1 -> sumn m (refine n m p0 p) == 1.
Proof.
  intros W P0 P. rewrite (sumn_ext m _ (fun x => p x + (1 # 2) * (p0 x - realised n m p x))).
  - rewrite sumn_plus, sumn_scale, sumn_minus, P, P0, realised_total by auto. ring.
  - intros i I. unfold refine. cbv zeta. rewrite memo_get by auto. reflexivity.
Qed.

(** ** One bin too many: the iteration does not end. *)
Lemma last_unreached n p : weighted n (S n) p n == 0.
Proof.
  unfold weighted. cbv zeta. rewrite memo_get by lia. apply sumn_zero. intros i I. destruct (Nat.eqb_spec n i); [lia|ring].
Qed.
Lemma last_grows n p0 p : refine n (S n) p0 p n == p n + (1 # 2) * p0 n.
Proof.
  unfold refine. cbv zeta. rewrite memo_get by lia. rewrite realised_get by lia. rewrite last_unreached. unfold Qdiv. ring.
Qed.
Lemma square_pos a : 0 <= a * a.
Proof. destruct (Qlt_le_dec a 0); [apply mul_nn2; lra|apply mul_nn; auto]. Qed.
Lemma never_settles n p0 : (1 # 100000000000000000000) * inject_Z (Z.of_nat (S n)) < (1 # 4) * (p0 n * p0 n) -> forall fuel p, settle n (S n) p0 p fuel = None.
Proof.
  intros B. induction fuel as [|fuel IH]; intros p; [reflexivity|]. cbn [settle]. cbv zeta.
  destruct (Qltb_spec (1 # 100000000000000000000) (mean_square (S n) (refine n (S n) p0 p) p)) as [H|H]; [apply IH|]. exfalso. apply H. clear H.
  unfold mean_square. set (q := refine n (S n) p0 p).
  assert (N : 0 < inject_Z (Z.of_nat (S n))) by (change 0 with (inject_Z 0); rewrite <- Zlt_Qlt; lia).
  apply Qlt_shift_div_l; auto. eapply Qlt_le_trans; [apply B|].
  assert (Q : (q n - p n) * (q n - p n) == (1 # 4) * (p0 n * p0 n)) by (unfold q; rewrite last_grows; ring).
  rewrite <- Q. apply (sumn_nonpos_member (S n) (fun x => (q x - p x) * (q x - p x)) n); [lia|]. intros. apply square_pos.
Qed.

(** ** The series *)
Lemma first_above_spec cum r count : forall from j, first_above cum r from count = Ok j -> (from <= j < from + count)%nat /\ r < cum j /\ forall i, (from <= i < j)%nat -> cum i <= r.
Proof.
  induction count as [|count IH]; intros from j E; [discriminate|]. cbn [first_above] in E. destruct (Qltb_spec r (cum from)).
  - inversion E; subst. split; [lia|]. split; auto. intros; lia.
  - destruct (IH _ _ E) as [A [B C]]. split; [lia|]. split; auto. intros i I. destruct (Nat.eq_dec i from); [subst; lra|apply C; lia].
Qed.
Lemma first_above_ok cum r count : forall from i, (from <= i < from + count)%nat -> r < cum i -> exists j, first_above cum r from count = Ok j.
Proof.
  induction count as [|count IH]; intros from i I R; [lia|]. cbn [first_above]. destruct (Qltb_spec r (cum from)); [eauto|].
  apply IH with i; auto. destruct (Nat.eq_dec i from); [subst; lra|lia].
Qed.
Lemma first_above_raise cum r count : forall from e, first_above cum r from count = Raise e -> e = StopIteration.
Proof. induction count as [|count IH]; intros from e E; cbn in E; [inversion E; auto|]. destruct (Qltb r (cum from)); [discriminate|eauto]. Qed.
Lemma update_ok mx n p state r : (state < n)%nat -> positive_below n p -> fst r < 1 -> exists j u, update mx n p state r = Ok (j, u).
Proof.
  intros S P R. unfold update. destruct (first_above_ok (cumulative n p state) (fst r) n 0 (n - 1)%nat) as [j E]; [lia| |rewrite E; cbn; eauto].
  unfold cumulative. replace (Datatypes.S (n - 1)) with n by lia. rewrite chance_total; auto.
Qed.
Lemma update_spec mx n p state r j u : update mx n p state r = Ok (j, u) -> (j < n)%nat /\ u = qmax 0 (bin mx n j - (1 # 2) + snd r * bin_size mx n) /\
  fst r < cumulative n p state j /\ forall i, (i < j)%nat -> cumulative n p state i <= fst r.
Proof.
  unfold update. destruct (first_above _ _ _ _) as [k|e] eqn:E; cbn; [|discriminate]. intros H; inversion H; subst. apply first_above_spec in E.
  destruct E as [A [B C]]. repeat split; auto; try lia. intros; apply C; lia.
Qed.
Lemma nat_pos n : (0 < n)%nat -> 0 < inject_Z (Z.of_nat n).
Proof. intros. change 0 with (inject_Z 0). rewrite <- Zlt_Qlt. lia. Qed.
Lemma bin_below mx n j : (j < n)%nat -> 0 <= mx -> bin mx n j + bin_size mx n / 2 <= mx.
Proof.
  intros J M. unfold bin, bin_size. pose proof (nat_pos n ltac:(lia)) as N. set (q := inject_Z (Z.of_nat n)) in *.
  assert (K : inject_Z (Z.of_nat j) + 1 <= q). { unfold q. change 1 with (inject_Z 1). rewrite <- inject_Z_plus, <- Zle_Qle. lia. }
  set (i := inject_Z (Z.of_nat j)) in *. setoid_replace (mx / q / 2 + i * (mx / q) + mx / q / 2) with (mx * (i + 1) / q) by (field; lra).
  apply Qle_shift_div_r; auto. rewrite !(Qmult_comm mx). apply mul_le_r; auto.
Qed.
Lemma bin_size_nonneg mx n : 0 <= mx -> 0 <= bin_size mx n.
Proof.
  intros M. unfold bin_size. destruct n; [unfold Qdiv; cbn; lra|]. pose proof (nat_pos (S n) ltac:(lia)). apply Qle_shift_div_l; lra.
Qed.
Lemma speed_bound mx n p state r j u : 0 <= mx -> bin_size mx n <= 1 -> 0 <= snd r < 1 -> update mx n p state r = Ok (j, u) -> 0 <= u <= mx.
Proof.
  intros M B R E. destruct (update_spec _ _ _ _ _ _ _ E) as [J [U _]]. pose proof (bin_below mx n j J M). pose proof (bin_size_nonneg mx n M).
  assert (snd r * bin_size mx n <= 1 * bin_size mx n) by (apply mul_le_r; lra). subst u. split; [apply qmax_l|]. apply qmax_lub; auto.
  assert (bin_size mx n / 2 == (1 # 2) * bin_size mx n) by field. lra.
Qed.
Definition sensible (mx : Q) (u : Q) : Prop := 0 <= u <= mx.
Lemma run_spec mx n p rs dt duration : (0 < n)%nat -> positive_below n p -> uniform rs -> 0 < dt -> forall fuel t i state us, (state < n)%nat ->
  duration <= t + inject_Z (Z.of_nat fuel) * dt -> (fuel = 0%nat \/ t + (inject_Z (Z.of_nat fuel) - 1) * dt < duration) ->
  exists vs, run mx n p rs dt duration t i state us fuel = Some (Ok (rev us ++ vs)) /\ length vs = fuel /\
    (forall v, In v vs -> 0 <= v) /\ (0 <= mx -> bin_size mx n <= 1 -> forall v, In v vs -> v <= mx).
Proof.
  intros N P U D. induction fuel as [|fuel IH]; intros t i state us S F L.
  - exists []. cbn [run]. cbn [Z.of_nat] in F. change (inject_Z 0) with 0 in F. destruct (Qltb_spec t duration); [lra|]. rewrite app_nil_r. repeat split; auto; intros; contradiction.
  - assert (T : t < duration). { destruct L as [L|L]; [discriminate|]. eapply Qle_lt_trans; [|apply L]. rewrite Nat2Z.inj_succ. unfold Z.succ. rewrite inject_Z_plus.
      setoid_replace (t + (inject_Z (Z.of_nat fuel) + inject_Z 1 - 1) * dt) with (t + inject_Z (Z.of_nat fuel) * dt) by (change (inject_Z 1) with 1; ring).
      assert (0 <= inject_Z (Z.of_nat fuel) * dt); [|lra]. apply mul_nn; [|lra]. change 0 with (inject_Z 0). rewrite <- Zle_Qle. lia. }
    cbn [run]. destruct (Qltb_spec t duration); [|contradiction]. destruct (update_ok mx n p state (rs i) S P) as [j [u E]]; [apply U|]. rewrite E.
    destruct (update_spec _ _ _ _ _ _ _ E) as [J [UU _]].
    rewrite Nat2Z.inj_succ in F, L. unfold Z.succ in F, L. rewrite inject_Z_plus in F, L. change (inject_Z 1) with 1 in F, L.
    destruct (IH (t + dt) (Datatypes.S i) j (u :: us) J) as [vs [R [LL [A B]]]].
    + lra.
    + destruct L as [L|L]; [discriminate|]. destruct fuel; [left; auto|right]. lra.
    + exists (u :: vs). rewrite R. cbn [rev]. rewrite <- app_assoc. cbn [app]. split; auto. split; [cbn; lia|]. split.
      * intros v [<-|V]; [subst u; apply qmax_l|auto].
      * intros M BS v [<-|V]; [|auto]. apply (speed_bound mx n p state (rs i) j u); auto. apply U.
Qed.
Lemma steps_enough dt duration : 0 < dt -> exists k, duration <= inject_Z (Z.of_nat k) * dt /\ (k = 0%nat \/ (inject_Z (Z.of_nat k) - 1) * dt < duration).
Proof.
  intros D. pose proof (Qle_ceiling (duration / dt)) as A. pose proof (Qceiling_lt (duration / dt)) as B. set (c := Qceiling (duration / dt)) in *.
  destruct (Z_le_gt_dec c 0).
  - exists 0%nat. split; [|auto]. cbn. ring_simplify. assert (C : duration / dt <= 0) by (eapply Qle_trans; [apply A|change 0 with (inject_Z 0); rewrite <- Zle_Qle; auto]).
    assert (E : duration == duration / dt * dt) by (field; lra). rewrite E. setoid_replace 0 with (0 * dt) by ring. apply mul_le_r; lra.
  - exists (Z.to_nat c). rewrite Z2Nat.id by lia. assert (E : duration == duration / dt * dt) by (field; lra). split.
    + rewrite E at 1. apply mul_le_r; lra.
    + right. rewrite E. apply Qmult_lt_r; auto. unfold Z.sub in B. rewrite inject_Z_plus in B. change (inject_Z (- (1))) with (- (1)) in B. lra.
Qed.
Lemma generated mx n p rs dt duration : (0 < n)%nat -> positive_below n p -> uniform rs -> 0 < dt -> exists k us,
  duration <= inject_Z (Z.of_nat k) * dt /\ (k = 0%nat \/ (inject_Z (Z.of_nat k) - 1) * dt < duration) /\
  generate mx n p rs dt duration k = Some (Ok us) /\ length us = S k /\ (forall u, In u us -> 0 <= u) /\ (0 <= mx -> bin_size mx n <= 1 -> forall u, In u us -> u <= mx).
Proof.
  intros N P U D. destruct (steps_enough dt duration D) as [k [F L]]. exists k. unfold generate.
  destruct (update_ok mx n p 0 (rs 0%nat) N P) as [j [u E]]; [apply U|]. rewrite E. destruct (update_spec _ _ _ _ _ _ _ E) as [J [UU _]].
  destruct (run_spec mx n p rs dt duration N P U D k 0 1 j [u] J) as [vs [R [LL [A B]]]]; [lra|destruct L; [auto|right; lra]|].
  exists (u :: vs). split; auto. split; auto. split; [exact R|]. split; [cbn; lia|]. split.
  - intros v [<-|V]; [subst u; apply qmax_l|auto].
  - intros M BS v [<-|V]; [|auto]. apply (speed_bound mx n p 0 (rs 0%nat) j u); auto. apply U.
Qed.
Lemma series_rows dt us : length (time_series dt us) = length us /\ forall i row, nth_error (time_series dt us) i = Some row ->
  exists u, nth_error us i = Some u /\ row = (inject_Z (Z.of_nat i) * dt, u, 0).
Proof.
  unfold time_series. assert (G : forall l k, length (map (fun iu => (inject_Z (Z.of_nat (fst iu)) * dt, snd iu, 0)) (combine (seq k (length l)) l)) = length l /\
    forall i row, nth_error (map (fun iu : nat * Q => (inject_Z (Z.of_nat (fst iu)) * dt, snd iu, 0)) (combine (seq k (length l)) l)) i = Some row ->
    exists u, nth_error l i = Some u /\ row = (inject_Z (Z.of_nat (k + i)) * dt, u, 0)).
  { induction l as [|u l IH]; intros k; [split; auto; intros [|i] row E; discriminate|]. cbn [length seq combine map]. destruct (IH (S k)) as [A B]. split; [lia|].
    intros [|i] row E; cbn [nth_error] in *; [inversion E; exists u; split; auto; cbn; rewrite Nat.add_0_r; auto|].
    destruct (B i row E) as [v [V R]]. exists v. split; auto. rewrite R. do 4 f_equal. lia. }
  apply (G us 0%nat).
Qed.
