(** Proofs about fluxes and pickup in the output. *)
From Verif Require Import Base Num Run_Model Run_Spec Report_Model Report_Spec.
From Coq Require Import Reals Lia Lra List Arith.
Import ListNotations.

(** ** The flux *)
Local Open Scope R_scope.
Definition mag (st : flux) : R := hypot (fs st) (fn st).
Lemma hypot_mag a b : hypot a b = magnitude (a, b).
Proof. reflexivity. Qed.
(** Whenever a step has been made, q is the magnitude of the flux. *)
Lemma course_q xs : forall st, fq st = hypot (fs st) (fn st) -> (fun st' => fq st' = hypot (fs st') (fn st')) (fold_left happen xs st).
Proof. induction xs as [|x xs IH]; intros st H; cbn [fold_left]; [exact H|]. apply IH. destruct x; cbn [happen tally clear fs fn fq]; try reflexivity. exact H. Qed.
Lemma start_q : fq at_start = hypot (fs at_start) (fn at_start).
Proof. cbn. unfold hypot. rewrite !Rmult_0_l, Rplus_0_l. symmetry. apply sqrt_0. Qed.
Lemma course_last xs : forall st, (fs (fold_left happen xs st), fn (fold_left happen xs st)) = last_flux xs (fs st, fn st).
Proof. induction xs as [|[a b| |] xs IH]; intros st; cbn [fold_left last_flux]; [reflexivity | | |]; rewrite IH; reflexivity. Qed.
Notation windy_steps l := (map (fun x => Wind (fst x) (snd x)) l).
(** The accumulators lag one step behind. *)
Lemma removelast_cons {A} (x y : A) l : removelast (x :: y :: l) = x :: removelast (y :: l).
Proof. reflexivity. Qed.
Lemma lag (steps : list (R * R)) : forall st, total (fold_left happen (windy_steps steps) st) = total st + sum_of (removelast (fq st :: map magnitude steps)) /\ count (fold_left happen (windy_steps steps) st) = (count st + length steps)%nat /\
  (steps <> [] -> fq (fold_left happen (windy_steps steps) st) = magnitude (last steps (0, 0))).
Proof.
  induction steps as [|[a b] steps IH]; intros st; cbn [map fold_left fst snd].
  - cbn [removelast sum_of fold_right length]. split; [lra|]. split; [lia | intros H; contradiction].
  - destruct (IH (happen st (Wind a b))) as (H1 & H2 & H3). split; [|split].
    + rewrite H1. cbn [happen tally total fq count fs fn]. rewrite removelast_cons. cbn [sum_of fold_right]. fold (sum_of (removelast (magnitude (a, b) :: map magnitude steps))). rewrite hypot_mag. lra.
    + rewrite H2. cbn [happen tally count length]. lia.
    + intros _. destruct steps as [|x steps]; [reflexivity|]. rewrite H3 by discriminate. reflexivity.
Qed.
Lemma lag_most (steps : list (R * R)) : forall st m, most st = Some m -> exists m', most (fold_left happen (windy_steps steps) st) = Some m' /\ m <= m' /\ (m' = m \/ In m' (removelast (fq st :: map magnitude steps))) /\ forall x, In x (removelast (fq st :: map magnitude steps)) -> x <= m'.
Proof.
  induction steps as [|[a b] steps IH]; intros st m Hm; cbn [map fold_left fst snd].
  - exists m. split; [exact Hm|]. split; [lra|]. split; [left; reflexivity|]. intros x [].
  - destruct (IH (happen st (Wind a b)) (Rmax m (fq st))) as (m' & H1 & H2 & H3 & H4); [cbn [happen tally most fq]; rewrite Hm; reflexivity|].
    cbn [happen tally fq fs fn] in H3, H4. rewrite hypot_mag in H3, H4. rewrite removelast_cons. exists m'. split; [exact H1|]. pose proof (Rmax_l m (fq st)). pose proof (Rmax_r m (fq st)). split; [lra|]. split.
    + destruct H3 as [-> | H3]; [|right; right; exact H3]. destruct (Rle_lt_dec (fq st) m); [left; apply Rmax_left; assumption | right; left; symmetry; apply Rmax_right; lra].
    + intros x [<- | Hx]; [lra | apply H4, Hx].
Qed.
Lemma interval_split before (steps : list (R * R)) : course (interval before steps) = fold_left happen (windy_steps steps) (clear (course before)).
Proof. unfold course, interval. rewrite fold_left_app. reflexivity. Qed.
Lemma before_q before : fq (course before) = magnitude (last_flux before (0, 0)).
Proof. unfold course. rewrite (course_q before at_start start_q), hypot_mag, course_last. reflexivity. Qed.
(** Sum, average and maximum of q in an interval. *)
Lemma flux_sum before steps : total (course (interval before steps)) = magnitude (last_flux before (0, 0)) + sum_of (map magnitude steps) - magnitude (last steps (last_flux before (0, 0))).
Proof.
  rewrite interval_split. destruct (lag steps (clear (course before))) as (-> & _). cbn [clear total fq]. rewrite before_q. generalize (last_flux before (0, 0)) as x. induction steps as [|y steps IH]; intros x; [cbn; lra|].
  cbn [map]. rewrite removelast_cons. cbn [sum_of fold_right]. fold (sum_of (removelast (magnitude y :: map magnitude steps))). fold (sum_of (map magnitude steps)). specialize (IH y).
  assert (E : last (y :: steps) x = last steps y) by (clear; revert x y; induction steps as [|z steps IH]; intros x y; [reflexivity|]; change (last (z :: steps) x = last (z :: steps) y); rewrite !(IH _ z); reflexivity).
  rewrite E. lra.
Qed.
Lemma flux_average before steps : steps <> [] -> average (course (interval before steps)) = (magnitude (last_flux before (0, 0)) + sum_of (map magnitude steps) - magnitude (last steps (0, 0))) / INR (length steps).
Proof.
  intros Hn. unfold average. rewrite flux_sum. rewrite interval_split. destruct (lag steps (clear (course before))) as (_ & -> & _). cbn [clear count Nat.add].
  assert (E : last steps (last_flux before (0, 0)) = last steps (0, 0)) by (generalize (last_flux before (0, 0)) as y; generalize (0, 0) as z; intros z y; clear - Hn; induction steps as [|x [|x' steps] IH]; [contradiction | reflexivity|]; apply IH; discriminate).
  rewrite E. destruct steps; [contradiction | reflexivity].
Qed.
Lemma flux_most before steps : steps <> [] -> exists m, most (course (interval before steps)) = Some m /\ In m (removelast (map magnitude (last_flux before (0, 0) :: steps))) /\
  forall x, In x (removelast (map magnitude (last_flux before (0, 0) :: steps))) -> x <= m.
Proof.
  intros Hn. rewrite interval_split. destruct steps as [|[a b] steps]; [contradiction|]. cbn [map fold_left fst snd].
  destruct (lag_most steps (happen (clear (course before)) (Wind a b)) (fq (course before)) eq_refl) as (m & H1 & H2 & H3 & H4). cbn [happen tally clear fq fs fn] in H3, H4. rewrite hypot_mag in H3, H4.
  rewrite removelast_cons, before_q in *. exists m. split; [exact H1|]. split; [destruct H3 as [-> | H3]; [left; reflexivity | right; exact H3]|]. intros x [<- | Hx]; [exact H2 | apply H4, Hx].
Qed.
(** The smallest value and the variance. *)
Lemma lag_least (steps : list (R * R)) : forall st m, least st = Some m -> exists m', least (fold_left happen (windy_steps steps) st) = Some m' /\ m' <= m /\ (m' = m \/ In m' (removelast (fq st :: map magnitude steps))) /\ forall x, In x (removelast (fq st :: map magnitude steps)) -> m' <= x.
Proof.
  induction steps as [|[a b] steps IH]; intros st m Hm; cbn [map fold_left fst snd].
  - exists m. split; [exact Hm|]. split; [lra|]. split; [left; reflexivity|]. intros x [].
  - destruct (IH (happen st (Wind a b)) (Rmin m (fq st))) as (m' & H1 & H2 & H3 & H4); [cbn [happen tally least fq]; rewrite Hm; reflexivity|].
    cbn [happen tally fq fs fn] in H3, H4. rewrite hypot_mag in H3, H4. rewrite removelast_cons. exists m'. split; [exact H1|]. pose proof (Rmin_l m (fq st)). pose proof (Rmin_r m (fq st)). split; [lra|]. split.
    + destruct H3 as [-> | H3]; [|right; right; exact H3]. destruct (Rle_lt_dec m (fq st)); [left; apply Rmin_left; assumption | right; left; symmetry; apply Rmin_right; lra].
    + intros x [<- | Hx]; [lra | apply H4, Hx].
Qed.
Lemma flux_least before steps : steps <> [] -> exists m, least (course (interval before steps)) = Some m /\ In m (removelast (map magnitude (last_flux before (0, 0) :: steps))) /\
  forall x, In x (removelast (map magnitude (last_flux before (0, 0) :: steps))) -> m <= x.
Proof.
  intros Hn. rewrite interval_split. destruct steps as [|[a b] steps]; [contradiction|]. cbn [map fold_left fst snd].
  destruct (lag_least steps (happen (clear (course before)) (Wind a b)) (fq (course before)) eq_refl) as (m & H1 & H2 & H3 & H4). cbn [happen tally clear fq fs fn] in H3, H4. rewrite hypot_mag in H3, H4.
  rewrite removelast_cons, before_q in *. exists m. split; [exact H1|]. split; [destruct H3 as [-> | H3]; [left; reflexivity | right; exact H3]|]. intros x [<- | Hx]; [exact H2 | apply H4, Hx].
Qed.
Lemma lag_squares (steps : list (R * R)) : forall st, squares (fold_left happen (windy_steps steps) st) = squares st + sum_of (map Rsqr (removelast (fq st :: map magnitude steps))).
Proof.
  induction steps as [|[a b] steps IH]; intros st; cbn [map fold_left fst snd]; [cbn; lra|]. rewrite IH. cbn [happen tally squares fq fs fn]. rewrite removelast_cons. cbn [map sum_of fold_right]. rewrite hypot_mag.
  fold (sum_of (map Rsqr (removelast (magnitude (a, b) :: map magnitude steps)))). unfold Rsqr. lra.
Qed.
Lemma deviations c l : sum_of (map (fun x => Rsqr (x - c)) l) = sum_of (map Rsqr l) - 2 * c * sum_of l + INR (length l) * (c * c).
Proof.
  induction l as [|x l IH]; [cbn; lra|]. cbn [map sum_of fold_right length] in *. fold (sum_of (map (fun x => Rsqr (x - c)) l)). fold (sum_of (map Rsqr l)). fold (sum_of l). rewrite IH, S_INR. unfold Rsqr. ring.
Qed.
Lemma removelast_length {A} (x : A) l : length (removelast (x :: l)) = length l.
Proof. revert x. induction l as [|y l IH]; intros x; [reflexivity|]. rewrite removelast_cons. cbn [length]. rewrite IH. reflexivity. Qed.
Lemma flux_spread before steps : (2 <= length steps)%nat -> variance (course (interval before steps)) = spread (removelast (map magnitude (last_flux before (0, 0) :: steps))).
Proof.
  intros Hn. unfold variance. rewrite interval_split. rewrite lag_squares. destruct (lag steps (clear (course before))) as (-> & -> & _). cbn [clear count Nat.add squares total fq]. rewrite before_q.
  cbn [map]. set (l := removelast (magnitude (last_flux before (0, 0)) :: map magnitude steps)). assert (L : length l = length steps) by (unfold l; rewrite removelast_length; apply map_length).
  unfold spread, mean_of. rewrite deviations, L. assert (P : 0 < INR (length steps)) by (apply lt_0_INR; lia). assert (P1 : 0 < INR (length steps) - 1). { apply le_INR in Hn. cbn [INR] in Hn. lra. }
  transitivity ((0 + sum_of (map Rsqr l) - (0 + sum_of l) * (0 + sum_of l) / INR (length steps)) / (INR (length steps) - 1)); [destruct (length steps) as [|[|k]]; [lia | lia | reflexivity]|]. field. lra.
Qed.
(** The plain variable is right. *)
Lemma flux_now before a b : fq (course (before ++ [Wind a b])) = magnitude (a, b).
Proof. unfold course. rewrite fold_left_app. reflexivity. Qed.
