(** Dune erosion: assembled statements and concrete cases. *)
From Coq Require Import Lia.
From Verif Require Import Base Num Utils_Model Solver_Model Linear Erosion_Model Erosion_Spec Erosion_Proofs.
Open Scope Q_scope.

Lemma zbT_trajectory nx p r j : zbT nx p r j == trajectory p r (st0 nx p r) j.
Proof. unfold zbT, trajectory, qmin. cbv zeta. destruct (Qltb_spec (zb r j) (slope p * (54 # 100) * (x r j - x r (st0 nx p r)) + toe p)), (Qle_bool_spec (zb r j) (toe p + slope p * (54 # 100) * (x r j - x r (st0 nx p r)))); lra. Qed.
Lemma cut_scarped nx p r ds : (st0 nx p r + ds <= nx)%nat -> scarped nx p r (with_bed r (cut nx p r ds)) (st0 nx p r) (st0 nx p r + ds).
Proof.
  intros L. split; [reflexivity|]. split; [lia|]. split; intros j J; cbn [zb with_bed]; [apply cut_out; auto|]. rewrite cut_in by lia. apply zbT_trajectory.
Qed.
Lemma erode_row cdf nx p wl Tp r r' : erode cdf nx p wl Tp r = Ok r' -> (forall j, zb r' j <= zb r j) /\ exists s e, nearest nx (toe p) (zb r) s /\ scarped nx p r r' s e.
Proof.
  intros E. apply erode_cases in E. destruct E as [[-> _]|[_ [_ [cs [_ ->]]]]].
  - split; [intros; lra|]. pose proof (toe_cell nx p r) as T. exists (st0 nx p r), (st0 nx p r). split; auto. split; auto. split; [destruct T; lia|]. split; intros; auto. lia.
  - split; [intros j; apply cut_le|]. exists (st0 nx p r), (st0 nx p r + scarp nx p r (volume p wl Tp r cs (1 - cdf ((toe p - (setup r + wl)) / sigma_s r))%Q))%nat. split; [apply toe_cell|]. apply cut_scarped, scarp_le.
Qed.
Lemma c45_lowers cdf nx p tide wave t rs rs' : run_ph12 cdf nx p tide wave t rs = Ok rs' ->
  Forall2 (fun r r' => (forall j, zb r' j <= zb r j) /\ exists s e, nearest nx (toe p) (zb r) s /\ scarped nx p r r' s e) rs rs'.
Proof. intros E. apply rows_forall in E. induction E; constructor; auto. eapply erode_row; eauto. Qed.
Lemma erode_above cdf nx p wl Tp r r' : erode cdf nx p wl Tp r = Ok r' -> increasing nx (x r) -> 0 <= slope p -> forall j, (j <= nx)%nat -> zb r' j < zb r j -> toe p <= zb r' j.
Proof.
  intros E I S j J L. apply erode_cases in E. destruct E as [[-> _]|[_ [_ [cs [_ ->]]]]]; [lra|]. cbn [zb with_bed] in *. set (ds := scarp _ _ _ _) in *.
  destruct (le_lt_dec (st0 nx p r) j); [|rewrite cut_out in L by lia; lra]. destruct (le_lt_dec (st0 nx p r + ds) j); [rewrite cut_out in L by lia; lra|].
  rewrite cut_in in * by lia. apply zbT_toe; auto.
Qed.
Lemma c45_above cdf nx p tide wave t rs rs' : run_ph12 cdf nx p tide wave t rs = Ok rs' -> 0 <= slope p ->
  Forall2 (fun r r' => increasing nx (x r) -> forall j, (j <= nx)%nat -> zb r' j < zb r j -> toe p <= zb r' j) rs rs'.
Proof. intros E S. apply rows_forall in E. induction E; constructor; auto. intros I. eapply erode_above; eauto. Qed.
Lemma c45_calm cdf nx p tide wave t rs : Forall (fun r => runup r * (126 # 100) + interp_circular t (fst tide) (snd tide) <= toe p) rs -> run_ph12 cdf nx p tide wave t rs = Ok rs.
Proof.
  intros F. unfold run_ph12. apply rows_forall. induction F as [|r rs H F IH]; constructor; auto. unfold erode, twl. destruct (Qltb_spec (toe p) (runup r * (126 # 100) + interp_circular t (fst tide) (snd tide))); [lra|auto].
Qed.
Lemma c45_rows cdf nx p tide wave t rs rs' k r r' : run_ph12 cdf nx p tide wave t rs = Ok rs' -> nth_error rs k = Some r -> nth_error rs' k = Some r' ->
  runup r * (126 # 100) + interp_circular t (fst tide) (snd tide) <= toe p -> r' = r.
Proof.
  intros E A B L. apply rows_forall in E. revert k A B. induction E as [|a b l l' H E IH]; intros [|k] A B; try discriminate; cbn in *; [|eapply IH; eauto].
  injection A as ->. injection B as ->. apply erode_cases in H. destruct H as [[-> _]|[H _]]; auto. unfold twl in H. lra.
Qed.

(** ** A dune *)
(** A beach, a dune of 6 m, a valley and a plain behind. *)
Definition beach (z : list Q) : transect := {| x := fun j => inject_Z (Z.of_nat j); zb := fun j => nth j z 0; runup := 3; setup := 1; sigma_s := 1 |}.
Definition dune : transect := beach [0; 1; 2; 29 # 10; 5; 6; 6; 6].
Definition storm : params := {| toe := 3; slope := 1 # 10; Cs := Some 1; dt := 36 |}.
Definition tide1 : (Q * Q) * list (Q * Q) := ((0, 0), [(1000, 0)]).
Definition waves1 : (Q * Q) * list (Q * Q) := ((0, 10), [(1000, 10)]).
Definition levels (n : nat) (r : result (list transect)) : list (list Q) := match r with Ok rs => map (fun r => map (fun j => Qred (zb r j)) (seq 0 n)) rs | Raise _ => [] end.
Lemma c45_case : levels 8 (run_ph12 half 7 storm tide1 waves1 10 [dune]) = [[0; 1; 2; 29 # 10; 1527 # 500; 6; 6; 6]] /\ levels 8 (run_ph12 half 7 storm tide1 waves1 10 [dune]) <> [].
Proof. split; [vm_compute; reflexivity|vm_compute; discriminate]. Qed.
Lemma half_distribution : distribution half.
Proof. intros q. unfold half. lra. Qed.
Lemma beach_increasing nx z : increasing nx (x (beach z)).
Proof. intros i j I J. cbn [x beach]. rewrite <- Zlt_Qlt. lia. Qed.
Lemma c45_above_case : increasing 7 (x dune) /\ 0 <= slope storm /\ levels 8 (run_ph12 half 7 storm tide1 waves1 10 [dune]) = [[0; 1; 2; 29 # 10; 1527 # 500; 6; 6; 6]].
Proof. split; [apply beach_increasing|]. split; [discriminate|]. apply c45_case. Qed.
Lemma c45_calm_case : Forall (fun r => runup r * (126 # 100) + interp_circular 10 (fst tide1) (snd tide1) <= 4) [dune] /\ exists r', erode half 7 storm 0 10 dune = Ok r' /\ zb r' 4%nat < zb dune 4%nat.
Proof. split; [constructor; [vm_compute; discriminate|constructor]|]. eexists. split; [reflexivity|]. vm_compute. reflexivity. Qed.
(** The toe is looked for everywhere: with a valley behind it, the dune is left alone and the land behind the valley is eroded. *)
Lemma c45_behind : exists nx p r r' i k, Cs p = Some 1 /\ increasing nx (x r) /\ erode half nx p 0 10 r = Ok r' /\ (i < k)%nat /\ (k <= nx)%nat /\
  (forall j, (j < i)%nat -> zb r j < toe p) /\ toe p < zb r i /\ (forall j, (j < k)%nat -> zb r' j == zb r j) /\ zb r' k < zb r k.
Proof.
  exists 7%nat, storm, (beach [0; 1; 2; 5; 6; 3; 5; 5]). eexists. exists 3%nat, 6%nat. split; [reflexivity|]. split; [apply beach_increasing|]. split; [reflexivity|]. split; [lia|]. split; [lia|].
  split. { intros j J. destruct j as [|[|[|j]]]; [reflexivity|reflexivity|reflexivity|lia]. }
  split; [reflexivity|]. split; [|vm_compute; reflexivity]. intros j J. destruct j as [|[|[|[|[|[|j]]]]]]; [reflexivity|reflexivity|reflexivity|reflexivity|reflexivity|vm_compute; reflexivity|lia].
Qed.

(** ** C92 *)
Lemma toe_excess nx p r : zb r (st0 nx p r) - zbT nx p r (st0 nx p r) == qmax 0 (zb r (st0 nx p r) - toe p).
Proof.
  rewrite zbT_trajectory. unfold trajectory, qmin, qmax.
  assert (E : slope p * (54 # 100) * (x r (st0 nx p r) - x r (st0 nx p r)) == 0) by ring.
  destruct (Qle_bool_spec (zb r (st0 nx p r)) (toe p + slope p * (54 # 100) * (x r (st0 nx p r) - x r (st0 nx p r)))); destruct (Qle_bool_spec 0 (zb r (st0 nx p r) - toe p)); lra.
Qed.
Lemma c92_bound cdf nx p wl Tp r r' : distribution cdf -> sensible p -> 0 < Tp -> erode cdf nx p wl Tp r = Ok r' ->
  exists s, nearest nx (toe p) (zb r) s /\
  let d := qabs (x r 1%nat - x r 0%nat) in sand nx d (zb r) - sand nx d (zb r') <= (if Qltb (toe p) (runup r * (126 # 100) + wl) then demand cdf p wl Tp r + d * qmax 0 (zb r s - toe p) else 0).
Proof.
  intros D S T E. exists (st0 nx p r). split; [apply toe_cell|]. cbv zeta. apply erode_cases in E. fold (twl wl r). destruct E as [[-> L]|[L [_ [cs [C ->]]]]].
  - destruct (Qltb_spec (toe p) (twl wl r)); lra.
  - destruct (Qltb_spec (toe p) (twl wl r)); [|lra]. rewrite <- (demand_volume cdf p wl Tp r cs C). rewrite <- toe_excess. cbn [zb with_bed]. apply removed. apply volume_nonneg; auto.
Qed.
Lemma above_Vc nx p r k : Vc nx p r k == above p r (st0 nx p r) (st0 nx p r + k).
Proof.
  unfold Vc, cumulative, above. replace (S k) with (1 + k)%nat by lia. rewrite (sumn_split 1 k). replace (st0 nx p r + k - st0 nx p r)%nat with k by lia.
  rewrite (sumn_S 0 (fun m => dx r * (zb r (st0 nx p r + m) - zbT nx p r (st0 nx p r + m)))), sumn_0. match goal with |- ?a + ?b + ?c - (?a + ?b) == _ => setoid_replace (a + b + c - (a + b)) with c by ring end.
  apply sumn_ext. intros m M. unfold dx. rewrite zbT_trajectory. replace (st0 nx p r + (1 + m))%nat with (st0 nx p r + 1 + m)%nat by lia. reflexivity.
Qed.
Lemma c92_nearest cdf nx p wl Tp r r' : distribution cdf -> sensible p -> 0 < Tp -> erode cdf nx p wl Tp r = Ok r' -> toe p < runup r * (126 # 100) + wl ->
  exists s e, nearest nx (toe p) (zb r) s /\ scarped nx p r r' s e /\ forall k, (s <= k <= nx)%nat -> qabs (above p r s e - demand cdf p wl Tp r) <= qabs (above p r s k - demand cdf p wl Tp r).
Proof.
  intros D SE T E L. apply erode_cases in E. unfold twl in *. destruct E as [[-> L']|[_ [_ [cs [C ->]]]]]; [lra|]. pose proof (volume_nonneg cdf p wl Tp r cs D SE T C) as V.
  rewrite (demand_volume cdf p wl Tp r cs C) in *. set (dV := demand cdf p wl Tp r) in *. exists (st0 nx p r), (st0 nx p r + scarp nx p r dV)%nat. split; [apply toe_cell|]. split; [apply cut_scarped, scarp_le|].
  intros k K. replace k with (st0 nx p r + (k - st0 nx p r))%nat by lia. pose proof (toe_cell nx p r) as [TC _].
  assert (Q : forall a b, a == b -> qabs (a - dV) == qabs (b - dV)). { intros a b H. destruct (qabs_cases (a - dV)) as [[? E1]|[? E1]], (qabs_cases (b - dV)) as [[? E2]|[? E2]]; rewrite E1, E2; lra. }
  rewrite <- (Q _ _ (above_Vc nx p r (scarp nx p r dV))), <- (Q _ _ (above_Vc nx p r (k - st0 nx p r))).
  unfold scarp. destruct (Qltb_spec dV 0); [lra|]. apply (argmin_spec (fun k => qabs (Vc nx p r k - dV)) (S nx - st0 nx p r)); lia.
Qed.
Lemma c92_case : distribution half /\ sensible storm /\ exists r', erode half 7 storm 0 10 dune = Ok r' /\ toe storm < runup dune * (126 # 100) + 0.
Proof. split; [apply half_distribution|]. split; [repeat split; discriminate|]. eexists. split; reflexivity. Qed.
(** More than the demand is removed: the sand above the toe in the first cell is not counted. *)
Lemma c92_excess : exists p r r', sensible p /\ increasing 7 (x r) /\ erode half 7 p 0 10 r = Ok r' /\ (3 # 2) * demand half p 0 10 r < sand 7 1 (zb r) - sand 7 1 (zb r').
Proof.
  exists {| toe := 3; slope := 1 # 10; Cs := Some 1; dt := 4 |}, (beach [0; 1; 39 # 10; 4; 5; 6; 6; 6]). eexists. split; [repeat split; discriminate|]. split; [apply beach_increasing|]. split; [reflexivity|]. vm_compute. reflexivity.
Qed.
(** The sand that waves erode is gone. *)
Lemma c92_lost : exists p r r', sensible p /\ increasing 7 (x r) /\ erode half 7 p 0 10 r = Ok r' /\ (forall j, zb r' j <= zb r j) /\ sand 7 1 (zb r') < sand 7 1 (zb r).
Proof.
  exists storm, dune. eexists. split; [repeat split; discriminate|]. split; [apply beach_increasing|]. split; [reflexivity|]. split; [|vm_compute; reflexivity].
  intros j. destruct (erode_row half 7 storm 0 10 dune _ eq_refl) as [H _]. apply H.
Qed.

(** ** C93 *)
Lemma square_le a b : 0 <= a <= b -> a * a <= b * b.
Proof. intros H. assert (a * a <= b * a) by (apply mul_le_r; lra). assert (a * b <= b * b) by (apply mul_le_r; lra). lra. Qed.
Lemma c93_stronger cdf nx p wl Tp Tp' r c c' d d' R r1 r2 : distribution cdf -> 0 <= c <= c' -> 0 <= d <= d' -> 0 < Tp' <= Tp -> runup r <= R ->
  erode cdf nx (with_storm p c d) wl Tp r = Ok r1 -> erode cdf nx (with_storm p c' d') wl Tp' (with_runup r R) = Ok r2 -> forall j, zb r2 j <= zb r1 j.
Proof.
  intros D C T P RR E1 E2 j. apply erode_cases in E1. apply erode_cases in E2. unfold twl in *. cbn [toe Cs with_storm runup with_runup setup sigma_s] in *.
  destruct E1 as [[-> L1]|[L1 [G1 [a [[= <-] ->]]]]]; destruct E2 as [[-> L2]|[L2 [G2 [b [[= <-] ->]]]]].
  - cbn. lra.
  - cbn [zb with_bed]. change (zb r j) with (zb (with_runup r R) j). apply cut_le.
  - exfalso. assert (runup r * (126 # 100) <= R * (126 # 100)) by (apply mul_le_r; lra). lra.
  - cbn [zb with_bed]. change (cut nx (with_storm p c' d') (with_runup r R)) with (cut nx (with_storm p c d) r). apply cut_mono.
    change (scarp nx (with_storm p c' d') (with_runup r R)) with (scarp nx (with_storm p c d) r). apply scarp_mono.
    unfold volume, twl. cbn [toe dt with_storm runup with_runup]. set (q := cdf _). assert (Q : 0 <= q <= 1) by apply D.
    set (w1 := runup r * (126 # 100) + wl - toe p) in *. set (w2 := R * (126 # 100) + wl - toe p) in *.
    assert (W : 0 <= w1 <= w2). { unfold w1, w2. assert (runup r * (126 # 100) <= R * (126 # 100)) by (apply mul_le_r; lra). lra. }
    assert (I : 0 < / Tp /\ / Tp <= / Tp'). { split; [apply Qinv_lt_0_compat; lra|]. apply Qle_shift_inv_r; [lra|]. assert (Tp' * / Tp' == 1) by (field; lra). assert (0 < / Tp') by (apply Qinv_lt_0_compat; lra).
      assert (Tp' * / Tp' <= Tp * / Tp') by (apply mul_le_r; lra). rewrite Qmult_comm. lra. }
    assert (A : 4 * c * (w1 * w1) <= 4 * c' * (w2 * w2)).
    { pose proof (square_le w1 w2 W). pose proof (square_nonneg w1). assert (4 * c * (w1 * w1) <= 4 * c' * (w1 * w1)) by (apply mul_le_r; lra). assert (w1 * w1 * (4 * c') <= w2 * w2 * (4 * c')) by (apply mul_le_r; lra). lra. }
    assert (B : (1 - q) * d / Tp <= (1 - q) * d' / Tp').
    { unfold Qdiv. assert (d * (1 - q) <= d' * (1 - q)) by (apply mul_le_r; lra). assert (0 <= (1 - q) * d) by (apply mul_nn; lra).
      assert (/ Tp * ((1 - q) * d) <= / Tp' * ((1 - q) * d)) by (apply mul_le_r; lra). assert ((1 - q) * d * / Tp' <= (1 - q) * d' * / Tp') by (apply mul_le_r; lra). lra. }
    assert (A0 : 0 <= 4 * c * (w1 * w1)) by (apply mul_nn; [lra|apply square_nonneg]). assert (B0 : 0 <= (1 - q) * d / Tp) by (unfold Qdiv; apply mul_nn; [apply mul_nn; lra|lra]).
    set (u := 4 * c * (w1 * w1)) in *. set (u' := 4 * c' * (w2 * w2)) in *. set (v := (1 - q) * d / Tp) in *. set (v' := (1 - q) * d' / Tp') in *. clearbody u u' v v'.
    assert (u * v <= u' * v) by (apply mul_le_r; lra). assert (v * u' <= v' * u') by (apply mul_le_r; lra). lra.
Qed.
Lemma c93_case : distribution half /\ 0 < 10 <= 10 /\ runup dune <= 4 /\
  levels 8 (run_ph12 half 7 (with_storm storm 1 36) tide1 waves1 10 [dune]) = [[0; 1; 2; 29 # 10; 1527 # 500; 6; 6; 6]] /\
  levels 8 (run_ph12 half 7 (with_storm storm 2 36) tide1 waves1 10 [with_runup dune 4]) = [[0; 1; 2; 29 # 10; 1527 # 500; 777 # 250; 1581 # 500; 6]].
Proof. split; [apply half_distribution|]. split; [lra|]. split; [discriminate|]. split; vm_compute; reflexivity. Qed.

(** ** C95 *)
Lemma c95_completes cdf nx p tide wave t rs c : Cs p = Some c -> Forall (fun r => 0 < sigma_s r) rs -> exists rs', run_ph12 cdf nx p tide wave t rs = Ok rs' /\ length rs' = length rs.
Proof.
  intros C F. unfold run_ph12. induction F as [|r rs H F IH]; [exists []; auto|]. destruct IH as [rs' [E L]]. cbn [rows]. unfold erode at 1. rewrite C. unfold p_collision. destruct (Qltb_spec 0 (sigma_s r)); [|lra].
  destruct (Qltb _ _); cbn [bind]; rewrite E; cbn [bind]; eexists; (split; [reflexivity|cbn; congruence]).
Qed.
Lemma c95_completes_case : Cs storm = Some 1 /\ Forall (fun r => 0 < sigma_s r) [dune].
Proof. split; [reflexivity|constructor; [reflexivity|constructor]]. Qed.
Lemma c95_default cdf nx p tide wave t rs r : Cs p = None -> In r rs -> toe p < runup r * (126 # 100) + interp_circular t (fst tide) (snd tide) -> run_ph12 cdf nx p tide wave t rs = Raise KeyError.
Proof.
  intros C I L. unfold run_ph12. induction rs as [|a rs IH]; [destruct I|]. cbn [rows]. unfold erode at 1. rewrite C. unfold twl. set (wl := interp_circular _ _ _) in *.
  destruct (Qltb_spec (toe p) (runup a * (126 # 100) + wl)); [reflexivity|]. cbn [bind]. destruct I as [->|I]; [lra|]. rewrite IH; auto.
Qed.
Lemma c95_default_case : In dune [dune] /\ toe storm < runup dune * (126 # 100) + interp_circular 10 (fst tide1) (snd tide1).
Proof. split; [left; auto|reflexivity]. Qed.
Lemma c95_still cdf nx p tide wave t rs r c : Cs p = Some c -> In r rs -> (forall r, In r rs -> sigma_s r == 0) -> toe p < runup r * (126 # 100) + interp_circular t (fst tide) (snd tide) -> run_ph12 cdf nx p tide wave t rs = Raise ValueError.
Proof.
  intros C I Z L. unfold run_ph12. induction rs as [|a rs IH]; [destruct I|]. cbn [rows]. unfold erode at 1. rewrite C. unfold twl, p_collision. set (wl := interp_circular _ _ _) in *.
  destruct (Qltb_spec (toe p) (runup a * (126 # 100) + wl)).
  - pose proof (Z a (or_introl eq_refl)). destruct (Qltb_spec 0 (sigma_s a)); [lra|reflexivity].
  - cbn [bind]. destruct I as [->|I]; [lra|]. rewrite IH; auto. intros b B. apply Z. right. auto.
Qed.
Lemma c95_still_case : let r := {| x := x dune; zb := zb dune; runup := 0; setup := 0; sigma_s := 0 |} in sigma_s r == 0 /\ toe storm < runup r * (126 # 100) + interp_circular 10 (0, 4) [(1000, 4)].
Proof. split; reflexivity. Qed.
Lemma c95_refuted : exists p tide wave t rs, sensible p /\ run_ph12 half 7 p tide wave t rs = Raise KeyError.
Proof. exists {| toe := 3; slope := 1 # 10; Cs := None; dt := 36 |}, tide1, waves1, 10, [dune]. split; [repeat split; discriminate|]. vm_compute. reflexivity. Qed.
