(** Proofs about the infiltration from runup. *)
From Coq Require Import ZArith Lia QArith.
From Verif Require Import Base Num Utils_Model Utils_Proofs Hydro_Model Hydro_Spec Hydro_Proofs Hydro_Shore Flow_Spec.
Open Scope Q_scope.

Lemma overheight_share d x s r f j : 0 < d -> even_spacing d x -> (s < r)%nat -> (r < length x)%nat -> overheight (Z.of_nat s) (Z.of_nat r) x = Ok f -> (j < length x)%nat ->
  ~ peak_cell s r j ->
  nth j f 0 == swash_share (nth s x 0) (nth r x 0) (nth j x 0).
Proof.
  intros Hd He Hs Hr H Hj NP. unfold overheight in H. set (p := peak (Z.of_nat s) (Z.of_nat r)) in *. assert (Hp : (Z.of_nat s <= p <= Z.of_nat r /\ 3 * p <= 3 * Z.of_nat s + 2 * (Z.of_nat r - Z.of_nat s) < 3 * (p + 1))%Z).
  { unfold p, peak. rewrite Z.quot_div_nonneg by lia. pose proof (Z.div_mod (3 * Z.of_nat s + 2 * (Z.of_nat r - Z.of_nat s)) 3 ltac:(lia)). pose proof (Z.mod_pos_bound (3 * Z.of_nat s + 2 * (Z.of_nat r - Z.of_nat s)) 3 ltac:(lia)). lia. }
  clearbody p. assert (Gs : get (Z.of_nat s) x = nth s x 0). { unfold get, position. destruct (Z.ltb_spec (Z.of_nat s) 0); [lia|]. rewrite Nat2Z.id. reflexivity. }
  assert (Gr : get (Z.of_nat r) x = nth r x 0). { unfold get, position. destruct (Z.ltb_spec (Z.of_nat r) 0); [lia|]. rewrite Nat2Z.id. reflexivity. }
  rewrite Gs, Gr in H. set (len := nth r x 0 - nth s x 0) in *.
  destruct (put_slice (Z.of_nat s) p (map (fun v => (v - nth s x 0) / ((2 # 3) * len)) (slice (Z.of_nat s) p x)) (zeros (length x))) as [f1|] eqn:E1; cbn [bind] in H; [|discriminate].
  destruct (put_slice (p + 1) (Z.of_nat r) (map (fun v => 3 - (v - nth s x 0) / ((1 # 3) * len)) (slice (p + 1) (Z.of_nat r) x)) f1) as [f2|] eqn:E2; cbn [bind] in H; [|discriminate]. apply Ok_inj in H.
  assert (Lf1 : length f1 = length x) by (apply put_slice_length in E1; rewrite zeros_length in E1; exact E1). assert (Lf2 : length f2 = length x) by (apply put_slice_length in E2; congruence).
  rewrite <- H, nth_put, Lf2. clear H f.
  assert (Ep : position (length x) p = Z.to_nat p) by (unfold position; destruct (Z.ltb_spec p 0); [lia|reflexivity]). rewrite Ep.
  destruct (Nat.eqb_spec j (Z.to_nat p)) as [Ej|Ej]; cbn [andb]; [exfalso; apply NP; unfold peak_cell; lia|].
  apply (put_slice_nth (p + 1) (Z.of_nat r) (fun v => 3 - (v - nth s x 0) / ((1 # 3) * len)) x f1 f2 j) in E2; try lia. apply (put_slice_nth (Z.of_nat s) p (fun v => (v - nth s x 0) / ((2 # 3) * len)) x (zeros (length x)) f1 j) in E1; try lia. 2: rewrite zeros_length; lia. 2: rewrite zeros_length; reflexivity.
  rewrite E2, E1, zeros_nth. clear E1 E2.
  pose proof (even_nth d x j He Hj) as Ij. pose proof (even_nth d x s He ltac:(lia)) as Is. pose proof (even_nth d x r He Hr) as Ir.
  assert (M : forall a b : Z, (a <= b)%Z -> inject_Z a * d <= inject_Z b * d) by (intros a b L; apply Qmult_le_compat_r; [rewrite <- Zle_Qle; exact L|lra]).
  assert (M1 : forall a b : Z, (a < b)%Z -> inject_Z a * d < inject_Z b * d) by (intros a b L; apply Qmult_lt_compat_r; [exact Hd|rewrite <- Zlt_Qlt; exact L]).
  assert (T : forall a b : Z, (3 * a < 3 * Z.of_nat s + 2 * (b - Z.of_nat s))%Z -> inject_Z a * d < inject_Z (Z.of_nat s) * d + (2 # 3) * (inject_Z b * d - inject_Z (Z.of_nat s) * d)).
  { intros a b L. apply M1 in L. unfold Zminus in L. rewrite !inject_Z_plus, !inject_Z_mult, inject_Z_plus, inject_Z_opp in L. change (inject_Z 3) with 3 in L. change (inject_Z 2) with 2 in L. lra. }
  assert (T1 : forall a b : Z, (3 * Z.of_nat s + 2 * (b - Z.of_nat s) < 3 * a)%Z -> inject_Z (Z.of_nat s) * d + (2 # 3) * (inject_Z b * d - inject_Z (Z.of_nat s) * d) < inject_Z a * d).
  { intros a b L. apply M1 in L. unfold Zminus in L. rewrite !inject_Z_plus, !inject_Z_mult, inject_Z_plus, inject_Z_opp in L. change (inject_Z 3) with 3 in L. change (inject_Z 2) with 2 in L. lra. }
  unfold swash_share. fold len. set (J := Z.of_nat j) in *. set (S0 := Z.of_nat s) in *. set (R0 := Z.of_nat r) in *.
  destruct (Qle_bool_spec (nth j x 0) (nth s x 0)) as [A|A].
  - assert (J <= S0)%Z. { destruct (Z_le_gt_dec J S0); [auto|]. pose proof (M1 S0 J ltac:(lia)). rewrite Ij, Is in A. lra. }
    destruct (Z.leb_spec (p + 1) J), (Z.ltb_spec J R0), (Z.leb_spec S0 J), (Z.ltb_spec J p); cbn [andb]; try lia; try reflexivity.
    assert (J = S0) as E by lia. assert (Z : nth j x 0 == nth s x 0) by (rewrite Ij, Is, E; reflexivity). rewrite Z. unfold Qdiv. ring.
  - assert (S0 < J)%Z. { destruct (Z_lt_ge_dec S0 J); [auto|]. pose proof (M J S0 ltac:(lia)). exfalso. apply A. rewrite Ij, Is. lra. }
    destruct (Qle_bool_spec (nth j x 0) (nth s x 0 + (2 # 3) * len)) as [B|B].
    + assert (3 * J <= 3 * S0 + 2 * (R0 - S0))%Z. { destruct (Z_le_gt_dec (3 * J) (3 * S0 + 2 * (R0 - S0))); [auto|]. pose proof (T1 J R0 ltac:(lia)). exfalso. unfold len in B. rewrite Ij, Is, Ir in B. lra. }
      destruct (Z.leb_spec (p + 1) J); [lia|]. cbn [andb]. destruct (Z.leb_spec S0 J); [|lia]. destruct (Z.ltb_spec J p); [|lia]. reflexivity.
    + assert (3 * S0 + 2 * (R0 - S0) <= 3 * J)%Z. { destruct (Z_le_gt_dec (3 * S0 + 2 * (R0 - S0)) (3 * J)); [auto|]. pose proof (T J R0 ltac:(lia)). exfalso. apply B. unfold len. rewrite Ij, Is, Ir. lra. }
      destruct (Z.leb_spec (p + 1) J); [|lia]. destruct (Qle_bool_spec (nth r x 0) (nth j x 0)) as [C|C].
      * assert (R0 <= J)%Z. { destruct (Z_le_gt_dec R0 J); [auto|]. pose proof (M1 J R0 ltac:(lia)). exfalso. rewrite Ij, Ir in C. lra. }
        destruct (Z.ltb_spec J R0); [lia|]. cbn [andb]. destruct (Z.leb_spec S0 J); [|lia]. destruct (Z.ltb_spec J p); [lia|]. reflexivity.
      * assert (J < R0)%Z. { destruct (Z_lt_ge_dec J R0); [auto|]. pose proof (M R0 J ltac:(lia)). exfalso. apply C. rewrite Ij, Ir. lra. }
        destruct (Z.ltb_spec J R0); [|lia]. reflexivity.
Qed.
Lemma waves_boussinesq b g shl o ds dx zb gw : boussinesq (with_waves b g) shl o ds dx zb gw = boussinesq g shl o ds dx zb gw.
Proof. destruct g. reflexivity. Qed.
Lemma free_value row lv gw3 w j v : free_cell row lv w j v -> 
  w = map2 (fun w zl => if Qltb (fst zl) (snd zl) then snd zl else w) (map2 qmin (map2 mask_value (gmask row) gw3) (gzb row)) (combine (gzb row) (dswl lv)) -> exists u, nth_error gw3 j = Some u /\ v == u.
Proof.
  intros (E & m & z & s & Em & U & Ez & Es & L & B) ->. apply nth_error_map2 in E. destruct E as (y & zl & Hy & Hzl & Ex). apply nth_error_combine_some in Hzl. destruct Hzl as (Hz & Hs).
  rewrite Ez in Hz. rewrite Es in Hs. injection Hz as Hz. injection Hs as Hs. rewrite <- Hz, <- Hs in Ex. destruct (Qltb_spec z s); [exfalso; lra|]. subst v.
  apply nth_error_map2 in Hy. destruct Hy as (u & z' & Hu & Hz' & ->). rewrite Ez in Hz'. injection Hz' as <-. apply nth_error_map2 in Hu. destruct Hu as (m' & q & Hm & Hq & ->). rewrite Em in Hm. injection Hm as <-.
  exists q. split; [exact Hq|]. unfold qmin in *. destruct (Qle_bool_spec (mask_value m q) z); [apply unmasked_value; exact U|exfalso; lra].
Qed.
Lemma swash_added g dt o row lv gw a1 w1 a0 w0 j v1 v0 d s r : swash_zone row lv d s r -> substep (with_waves true g) dt o row lv gw = Ok (a1, w1) -> substep (with_waves false g) dt o row lv gw = Ok (a0, w0) ->
  free_cell row lv w1 j v1 -> free_cell row lv w0 j v0 ->
  ~ peak_cell s r j -> (j < length (gx row))%nat ->
  v1 - v0 == Cl_gw g * swash_share (nth s (gx row) 0) (nth r (gx row) 0) (nth j (gx row) 0).
Proof.
  intros (Hd & He & Hs & Hr & Hsr & Hrl) S1 S0 F1 F0 NP Hj. unfold substep in S1, S0. repeat rewrite waves_boussinesq in S1. repeat rewrite waves_boussinesq in S0. cbn [waves with_waves Cl_gw] in S1, S0.
  destruct (boussinesq _ _ _ _ _ _ gw) as [r1|] eqn:E1; cbn [bind] in S1, S0; [|discriminate]. rewrite !waves_boussinesq in S1. rewrite !waves_boussinesq in S0.
  destruct (boussinesq _ _ _ _ _ _ (vplus (dt / 2) (fst r1) (snd r1))) as [r2|] eqn:E2; cbn [bind] in S1, S0; [|discriminate]. rewrite !waves_boussinesq in S1. rewrite !waves_boussinesq in S0.
  destruct (boussinesq _ _ _ _ _ _ (vplus (dt / 2) (fst r1) (snd r2))) as [r3|] eqn:E3; cbn [bind] in S1, S0; [|discriminate]. rewrite !waves_boussinesq in S1. rewrite !waves_boussinesq in S0.
  destruct (boussinesq _ _ _ _ _ _ (vplus dt (fst r1) (snd r3))) as [r4|] eqn:E4; cbn [bind] in S1, S0; [|discriminate].
  set (gw2 := vplus (dt / 6) _ _) in *. destruct (overheight _ _ _) as [f|] eqn:EO; cbn [bind] in S1; [|discriminate].
  apply Ok_inj in S1. injection S1 as _ S1. apply Ok_inj in S0. injection S0 as _ S0. symmetry in S1, S0.
  destruct (free_value _ _ _ _ _ _ F1 S1) as (u1 & U1 & V1). destruct (free_value _ _ _ _ _ _ F0 S0) as (u0 & U0 & V0).
  unfold vplus in U1. apply nth_error_map2 in U1. destruct U1 as (a & b & Ua & Ub & ->). fold gw2 in Ua. rewrite U0 in Ua. injection Ua as <-. rewrite Qred_correct in V1.
  rewrite Hs, Hr in EO. pose proof (overheight_share d _ s r f j Hd He Hsr Hrl EO Hj NP) as O. rewrite (nth_error_nth _ _ 0 Ub) in O. rewrite V1, V0, O. ring.
Qed.
