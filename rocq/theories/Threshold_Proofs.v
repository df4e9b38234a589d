(** Proofs about thresholds, transport capacity and grain speed. *)
From Coq Require Import Reals Lra Lia Psatz String.
From Verif Require Import Base Ext Threshold_Model Threshold_Spec.
Open Scope R_scope.

(** ** Capacity *)

Lemma kpos c r g : 0 < c -> 0 < r -> 0 < g -> 0 < c * r / g.
Proof. intros. unfold Rdiv. apply Rmult_lt_0_compat; [apply Rmult_lt_0_compat; assumption|now apply Rinv_0_lt_compat]. Qed.
Lemma sgn_pos x a b : 0 < x -> sgn_inf x a b = a.
Proof. intros H. unfold sgn_inf. destruct (Rlt_dec 0 x); [reflexivity|contradiction]. Qed.
(** What the capacity is for a finite threshold. *)
Definition kval (q : tparams) (tr : transport) (d : R) : R :=
  match tr with
  | Bagnold | VanRijnStrypsteen => Cb q * trhoa q / tg q
  | BagnoldGs => Cb q * sqrt (d / (25 / 100000)) * trhoa q / tg q
  | Kawamura => Ck q * trhoa q / tg q
  | Lettau => Cl q * trhoa q / tg q
  | Dk => Cdk q * trhoa q / tg q
  | Sauermann => 2 * (35 / 100) * trhoa q / tg q
  end.
Definition shape (tr : transport) (us t : R) : R :=
  match tr with
  | Bagnold | BagnoldGs => (us - t) * (us - t) * (us - t)
  | Kawamura => (us + t) * (us + t) * (us - t)
  | Lettau => us * us * (us - t)
  | Dk => 8 / 10 * t * (us * us - 8 / 10 * t * (8 / 10 * t))
  | Sauermann => us * us - t * t
  | VanRijnStrypsteen => us * us * us - t * t * t
  end.
Definition speed (tr : transport) (u : R) : R := match tr with Sauermann => 1 | _ => u end.
Lemma kval_pos q tr d : good_t q -> 0 < d -> 0 < kval q tr d.
Proof.
  intros [H1 [H2 [H3 [H4 [H5 H6]]]]] Hd. destruct tr; cbn; apply kpos; try assumption; try lra.
  apply Rmult_lt_0_compat; [assumption|]. apply sqrt_lt_R0. lra.
Qed.
Lemma capacity_fin q tr d us u t : capacity q tr d us u (Fin t) = Fin (Rmax 0 (kval q tr d * shape tr us t / speed tr u)).
Proof. destruct tr; cbn; f_equal; f_equal; unfold Rdiv; try rewrite Rinv_1; ring. Qed.
Lemma capacity_inf q tr d us u : good_t q -> 0 < d -> 0 < us -> 0 < u -> capacity q tr d us u PInf = Fin 0.
Proof.
  intros Hq Hd Hus Hu. pose proof (kval_pos q tr d Hq Hd) as Hk. assert (Hi : 0 < / u) by (now apply Rinv_0_lt_compat).
  assert (Hs : 0 < us * us) by (now apply Rmult_lt_0_compat).
  destruct tr; cbn in *; repeat (rewrite sgn_pos by (assumption || lra || (apply Rmult_lt_0_compat; (assumption || lra))); cbn); try reflexivity.
Qed.
Lemma div_max_pos k s u : 0 < k -> 0 < u -> (0 < Rmax 0 (k * s / u) <-> 0 < s) /\ (s <= 0 -> Rmax 0 (k * s / u) = 0).
Proof.
  intros Hk Hu. assert (Hi : 0 < / u) by (now apply Rinv_0_lt_compat). unfold Rdiv. split.
  - split; intros H.
    + unfold Rmax in H. destruct (Rle_dec 0 (k * s * / u)); [|lra].
      destruct (Rlt_dec 0 s); [assumption|]. assert (0 <= k * - s * / u) by (apply Rmult_le_pos; [apply Rmult_le_pos; lra|lra]). lra.
    + assert (0 < k * s * / u) by (apply Rmult_lt_0_compat; [now apply Rmult_lt_0_compat|assumption]). unfold Rmax. destruct (Rle_dec 0 (k * s * / u)); lra.
  - intros H. assert (0 <= k * - s * / u) by (apply Rmult_le_pos; [apply Rmult_le_pos; lra|lra]). unfold Rmax. destruct (Rle_dec 0 (k * s * / u)); lra.
Qed.
Lemma cube_sign x : 0 < x * x * x <-> 0 < x.
Proof.
  split; intros H.
  - destruct (Rlt_dec 0 x); [assumption|]. assert (0 <= (x * x) * - x) by (apply Rmult_le_pos; [apply Rle_0_sqr|lra]). lra.
  - apply Rmult_lt_0_compat; [now apply Rmult_lt_0_compat|assumption].
Qed.
(** The sign of the shape. *)
Lemma shape_sign tr us t : 0 < us -> 0 <= t -> tr <> Dk -> (0 < shape tr us t <-> t < us).
Proof.
  intros Hus Ht Hd. destruct tr; cbn; try congruence.
  - rewrite cube_sign. lra.
  - rewrite cube_sign. lra.
  - split; intros H.
    + destruct (Rlt_dec t us); [assumption|]. assert (0 <= (us + t) * (us + t) * (t - us)) by (apply Rmult_le_pos; [apply Rle_0_sqr|lra]). lra.
    + apply Rmult_lt_0_compat; [nra|lra].
  - split; intros H.
    + destruct (Rlt_dec t us); [assumption|]. assert (0 <= us * us * (t - us)) by (apply Rmult_le_pos; [apply Rle_0_sqr|lra]). lra.
    + apply Rmult_lt_0_compat; [nra|lra].
  - split; intros H; nra.
  - split; intros H.
    + destruct (Rlt_dec t us); [assumption|]. assert (us * us <= t * t) by nra. assert (us * us * us <= t * t * t) by (apply Rmult_le_compat; nra). lra.
    + assert (t * t <= us * us) by nra. assert (t * t * t < us * us * us); [|lra].
      apply Rle_lt_trans with (us * us * t); [apply Rmult_le_compat_r; lra|]. apply Rmult_lt_compat_l; nra.
Qed.
Lemma shape_dk us t : 0 <= us -> 0 <= t -> us <= 8 / 10 * t -> shape Dk us t <= 0.
Proof.
  intros Hus Ht H. cbn. assert (us * us <= 8 / 10 * t * (8 / 10 * t)) by nra.
  assert (0 <= 8 / 10 * t * (8 / 10 * t * (8 / 10 * t) - us * us)) by (apply Rmult_le_pos; lra). lra.
Qed.
Lemma speed_pos tr u : 0 < u -> 0 < speed tr u.
Proof. destruct tr; cbn; lra. Qed.

(** One step: the concentration is finite and non-negative, and positive exactly above the threshold. *)
Lemma capacity_sign q tr d us u th : good_t q -> 0 < d -> 0 < us -> 0 < u -> good_th th ->
  exists c, capacity q tr d us u th = Fin c /\ 0 <= c /\ (tr <> Dk -> (0 < c <-> ~ ele (Fin us) th)) /\
    (tr = Dk -> ele (Fin us) (emul (Fin (8 / 10)) th) -> c = 0).
Proof.
  intros Hq Hd Hus Hu [-> | [t [-> Ht]]].
  - exists 0. split; [now apply capacity_inf|]. split; [lra|]. split; [intros _; cbn; split; [lra|tauto]|reflexivity].
  - exists (Rmax 0 (kval q tr d * shape tr us t / speed tr u)). split; [apply capacity_fin|]. split; [apply Rmax_l|].
    destruct (div_max_pos (kval q tr d) (shape tr us t) (speed tr u) (kval_pos q tr d Hq Hd) (speed_pos tr u Hu)) as [A B]. split.
    + intros Htr. rewrite A, (shape_sign tr us t Hus Ht Htr). cbn. lra.
    + intros -> H. cbn in H. apply B. apply shape_dk; lra.
Qed.

Lemma neqb_spec x y : Bool.reflect (x <> y) (neqb x y).
Proof. unfold neqb. destruct (Req_EM_T x y); now constructor. Qed.
Lemma equilibrium_cu q tr rows g c c' : good_t q -> 0 < accfac q -> process_transport q = true -> good_g g -> equilibrium q tr rows g c = Ok c' ->
  exists x, Cu c' = Fin x /\ 0 <= x /\ (tr <> Dk -> ele (Fin (gustar g)) (guth g) -> x = 0) /\
    (tr = Dk -> ele (Fin (gustar g)) (emul (Fin (8 / 10)) (guth g)) -> x = 0) /\
    (tr <> Dk -> 0 < gu g -> ~ ele (Fin (gustar g)) (guth g) -> 0 < x).
Proof.
  intros Hq Ha Hp [G1 [G2 [G3 G4]]] E. unfold equilibrium in E. rewrite Hp in E.
  destruct (match tr with BagnoldGs => negb (Nat.eqb rows 1) | _ => false end); [discriminate|]. cbn [bind] in E. apply Ok_inj in E. subst c'. cbn [Cu].
  destruct (neqb_spec (gustar g) 0) as [N1|N1], (neqb_spec (gu g) 0) as [N2|N2]; cbn [andb].
  - destruct (capacity_sign q tr (gd g) (gustar g) (gu g) (guth g)) as [x [Ex [Px [Sx Dx]]]]; try assumption; try lra.
    exists (x * accfac q). rewrite Ex. split; [reflexivity|]. split; [apply Rmult_le_pos; lra|]. split.
    { intros Ht Hl. assert (~ 0 < x) by (rewrite Sx by exact Ht; tauto). assert (x = 0) by lra. subst x. ring. }
    split; [intros Ht Hl; rewrite (Dx Ht Hl); ring|]. intros Ht _ Hl. apply Rmult_lt_0_compat; [|exact Ha]. now apply Sx.
  - exists (0 * accfac q). split; [reflexivity|]. split; [lra|]. split; [intros; ring|]. split; [intros; ring|]. intros; lra.
  - exists (0 * accfac q). split; [reflexivity|]. split; [lra|]. split; [intros; ring|]. split; [intros; ring|].
    intros _ _ H. exfalso. apply H. assert (E : gustar g = 0) by (destruct (Req_EM_T (gustar g) 0); [assumption|contradiction]). rewrite E.
    destruct G4 as [-> | [t [-> Ht]]]; cbn; tauto.
  - exists (0 * accfac q). split; [reflexivity|]. split; [lra|]. split; [intros; ring|]. split; [intros; ring|]. intros; lra.
Qed.

(** Monotony. *)
Lemma div_max_mono k s s' u : 0 < k -> 0 < u -> s <= s' -> Rmax 0 (k * s / u) <= Rmax 0 (k * s' / u).
Proof.
  intros Hk Hu H. assert (Hi : 0 < / u) by (now apply Rinv_0_lt_compat). apply Rmax_lub; [apply Rmax_l|].
  apply Rle_trans with (k * s' / u); [|apply Rmax_r]. unfold Rdiv. apply Rmult_le_compat_r; [lra|]. apply Rmult_le_compat_l; lra.
Qed.
Lemma cube_mono x y : x <= y -> x * x * x <= y * y * y.
Proof. intros H. assert (0 <= (y - x) * (x * x + x * y + y * y)) by (apply Rmult_le_pos; [lra|nra]). lra. Qed.
Lemma shape_th tr us t t' : 0 < us -> 0 <= t -> t <= t' -> tr <> Dk -> tr <> Kawamura -> shape tr us t' <= shape tr us t.
Proof.
  intros Hus Ht Hl H1 H2. destruct tr; cbn; try congruence.
  - apply cube_mono. lra.
  - apply cube_mono. lra.
  - apply Rmult_le_compat_l; [nra|lra].
  - nra.
  - pose proof (cube_mono t t' Hl). lra.
Qed.
Lemma shape_us tr us us' t : 0 < us -> us <= us' -> 0 <= t -> t <= us -> shape tr us t <= shape tr us' t.
Proof.
  intros Hus Hl Ht Htu. destruct tr; cbn.
  - apply cube_mono. lra.
  - apply cube_mono. lra.
  - apply Rmult_le_compat; nra.
  - apply Rmult_le_compat; nra.
  - apply Rmult_le_compat_l; nra.
  - nra.
  - pose proof (cube_mono us us' Hl). lra.
Qed.
Lemma capacity_th q tr d us u th th' : good_t q -> 0 < d -> 0 < us -> 0 < u -> good_th th -> good_th th' -> ele th th' -> tr <> Dk -> tr <> Kawamura ->
  ele (capacity q tr d us u th') (capacity q tr d us u th).
Proof.
  intros Hq Hd Hus Hu G G' L N1 N2. destruct G' as [-> | [t' [-> Ht']]].
  - rewrite capacity_inf by assumption. destruct (capacity_sign q tr d us u th) as [c [E [P _]]]; try assumption. rewrite E. exact P.
  - destruct G as [-> | [t [-> Ht]]]; [destruct L|]. cbn in L. rewrite !capacity_fin. cbn. apply div_max_mono; [now apply kval_pos|now apply speed_pos|].
    now apply shape_th.
Qed.
Lemma capacity_us q tr d us us' u th : good_t q -> 0 < d -> 0 < us -> us <= us' -> 0 < u -> good_th th ->
  ele (capacity q tr d us u th) (capacity q tr d us' u th).
Proof.
  intros Hq Hd Hus Hl Hu [-> | [t [-> Ht]]].
  - rewrite !capacity_inf by (try assumption; lra). cbn. lra.
  - rewrite !capacity_fin. cbn. destruct (Rle_dec t us) as [L|L].
    + apply div_max_mono; [now apply kval_pos|now apply speed_pos|]. now apply shape_us.
    + assert (C : tr = Dk \/ tr <> Dk) by (destruct tr; (left; reflexivity) || (right; congruence)). destruct C as [-> |C].
      * apply div_max_mono; [now apply kval_pos|now apply speed_pos|]. cbn. apply Rmult_le_compat_l; nra.
      * destruct (div_max_pos (kval q tr d) (shape tr us t) (speed tr u) (kval_pos q tr d Hq Hd) (speed_pos tr u Hu)) as [A B].
        rewrite B; [apply Rmax_l|]. assert (~ 0 < shape tr us t) by (rewrite shape_sign by assumption; lra). lra.
Qed.
(** ** Moisture *)
Lemma gtb_spec x y : Bool.reflect (y < x) (gtb x y).
Proof. unfold gtb. destruct (Rlt_dec y x); now constructor. Qed.
Lemma ltb_spec x y : Bool.reflect (x < y) (ltb x y).
Proof. unfold ltb. destruct (Rlt_dec x y); now constructor. Qed.
Lemma leb_spec x y : Bool.reflect (x <= y) (leb x y).
Proof. unfold leb. destruct (Rle_dec x y); now constructor. Qed.

Lemma good_mul u f : good_th u -> 0 < f -> good_th (emul u (Fin f)).
Proof.
  intros [-> | [t [-> Ht]]] Hf; [left; cbn; now apply sgn_pos|]. right. exists (t * f). split; [reflexivity|]. apply Rmult_le_pos; lra.
Qed.
Lemma good_mul' u f : good_th u -> 0 < f -> good_th (emul (Fin f) u).
Proof.
  intros [-> | [t [-> Ht]]] Hf; [left; cbn; now apply sgn_pos|]. right. exists (f * t). split; [reflexivity|]. apply Rmult_le_pos; lra.
Qed.
Lemma mul_mono u f f' : good_th u -> 0 < f -> f <= f' -> ele (emul u (Fin f)) (emul u (Fin f')).
Proof.
  intros [-> | [t [-> Ht]]] Hf Hl; [cbn; rewrite !sgn_pos by lra; exact I|]. cbn. apply Rmult_le_compat_l; lra.
Qed.
Lemma mul_raise u f : good_th u -> 1 <= f -> ele u (emul u (Fin f)).
Proof.
  intros [-> | [t [-> Ht]]] Hf; [cbn; rewrite sgn_pos by lra; exact I|]. cbn. rewrite <- (Rmult_1_r t) at 1. apply Rmult_le_compat_l; lra.
Qed.
Lemma good_add u f : good_th u -> 0 <= f -> good_th (eadd u (Fin f)).
Proof. intros [-> | [t [-> Ht]]] Hf; [left; reflexivity|]. right. exists (t + f). split; [reflexivity|lra]. Qed.
Lemma add_mono u f f' : good_th u -> f <= f' -> ele (eadd u (Fin f)) (eadd u (Fin f')).
Proof. intros [-> | [t [-> Ht]]] Hl; [exact I|]. cbn. lra. Qed.
Lemma add_raise u f : good_th u -> 0 <= f -> ele u (eadd u (Fin f)).
Proof. intros [-> | [t [-> Ht]]] Hl; [exact I|]. cbn. lra. Qed.
Lemma chepil_fin t f : 0 <= t -> 0 <= f -> esqrt (eadd (esqr (Fin t)) (Fin f)) = Fin (sqrt (t * t + f)).
Proof. intros Ht Hf. cbn. destruct (Rlt_dec (t * t + f) 0); [|reflexivity]. pose proof (Rmult_le_pos t t Ht Ht). lra. Qed.
Lemma good_chepil u f : good_th u -> 0 <= f -> good_th (esqrt (eadd (esqr u) (Fin f))).
Proof.
  intros [-> | [t [-> Ht]]] Hf; [left; reflexivity|]. right. rewrite chepil_fin by assumption. eexists. split; [reflexivity|]. apply sqrt_pos.
Qed.
Lemma chepil_mono u f f' : good_th u -> 0 <= f -> f <= f' -> ele (esqrt (eadd (esqr u) (Fin f))) (esqrt (eadd (esqr u) (Fin f'))).
Proof.
  intros [-> | [t [-> Ht]]] Hf Hl; [exact I|]. rewrite !chepil_fin by lra. cbn. apply sqrt_le_1_alt. lra.
Qed.
Lemma chepil_raise u f : good_th u -> 0 <= f -> ele u (esqrt (eadd (esqr u) (Fin f))).
Proof.
  intros [-> | [t [-> Ht]]] Hf; [exact I|]. rewrite chepil_fin by lra. cbn. rewrite <- (sqrt_square t Ht) at 1. apply sqrt_le_1_alt. lra.
Qed.
Lemma sqrt_ge_1 x : 1 <= x -> 1 <= sqrt x.
Proof. intros H. rewrite <- sqrt_1. apply sqrt_le_1_alt. exact H. Qed.
Lemma ln10_pos : 0 < ln 10.
Proof. rewrite <- ln_1. apply ln_increasing; lra. Qed.
Lemma log10_mono x y : 0 < x -> x <= y -> log10 x <= log10 y.
Proof.
  intros Hx Hl. unfold log10, Rdiv. apply Rmult_le_compat_r; [left; apply Rinv_0_lt_compat, ln10_pos|].
  destruct Hl as [Hl | ->]; [left; now apply ln_increasing|lra].
Qed.
Lemma exp_mono x y : x <= y -> exp x <= exp y.
Proof. intros [H | ->]; [left; now apply exp_increasing|lra]. Qed.
Lemma exp_ge_1 x : 0 <= x -> 1 <= exp x.
Proof. intros H. rewrite <- exp_0. now apply exp_mono. Qed.
Lemma dong_K_pos d : 0 < dong_K d.
Proof. unfold dong_K. destruct (ltb d _); [lra|]. destruct (ltb d _); [lra|]. destruct (ltb d _); [lra|]. destruct (ltb d _); [lra|]. destruct (ltb d _); lra. Qed.
Lemma div_pos_le x y a : 0 < a -> x <= y -> x / a <= y / a.
Proof. intros Ha H. unfold Rdiv. apply Rmult_le_compat_r; [left; now apply Rinv_0_lt_compat|exact H]. Qed.
Lemma div_nn x a : 0 <= x -> 0 < a -> 0 <= x / a.
Proof. intros Hx Ha. unfold Rdiv. apply Rmult_le_pos; [exact Hx|left; now apply Rinv_0_lt_compat]. Qed.
Lemma sqr_mono x y : 0 <= x -> x <= y -> x * x <= y * y.
Proof. intros. apply Rmult_le_compat; assumption. Qed.

(** X exp(-X) increases up to X = 1. *)
Lemma xexp_mono X Y : 0 <= X -> X <= Y -> Y <= 1 -> X * exp (- X) <= Y * exp (- Y).
Proof.
  intros HX HXY HY. replace (exp (- Y)) with (exp (- X) * exp (- (Y - X))) by (rewrite <- exp_plus; f_equal; ring).
  assert (X <= Y * exp (- (Y - X))).
  { pose proof (exp_ineq1_le (- (Y - X))) as He. apply Rle_trans with (Y * (1 + - (Y - X))); [|apply Rmult_le_compat_l; lra].
    assert (0 <= (1 - Y) * (Y - X)) by (apply Rmult_le_pos; lra). lra. }
  rewrite (Rmult_comm Y), Rmult_assoc, (Rmult_comm (exp (- (Y - X)))). rewrite (Rmult_comm X). apply Rmult_le_compat_l; [left; apply exp_pos|assumption].
Qed.
(** The cohesion term of Gregory and Darwish. *)
Lemma cohesion_mono w x y : 0 < w -> 0 < x -> x <= y -> y <= 105 / 10 * w ->
  exp (- (1 / 10) * x / w) * Rmax (x - 1 / 2 * w) 0 <= exp (- (1 / 10) * y / w) * Rmax (y - 1 / 2 * w) 0.
Proof.
  intros Hw Hx Hl Hy. unfold Rmax at 1. destruct (Rle_dec (x - 1 / 2 * w) 0) as [L|L].
  - rewrite Rmult_0_r. apply Rmult_le_pos; [left; apply exp_pos|apply Rmax_r].
  - unfold Rmax. destruct (Rle_dec (y - 1 / 2 * w) 0) as [L'|L']; [lra|].
    assert (E : forall z, exp (- (1 / 10) * z / w) * (z - 1 / 2 * w) = 10 * w * exp (- (1 / 20)) * ((z - 1 / 2 * w) / (10 * w) * exp (- ((z - 1 / 2 * w) / (10 * w))))).
    { intros z. replace (- (1 / 10) * z / w) with (- (1 / 20) + - ((z - 1 / 2 * w) / (10 * w))) by (field; lra). rewrite exp_plus. field. lra. }
    rewrite !E. apply Rmult_le_compat_l.
    + apply Rmult_le_pos; [lra|left; apply exp_pos].
    + apply xexp_mono; [apply div_nn; lra|apply div_pos_le; lra|].
      apply Rmult_le_reg_r with (10 * w); [lra|]. unfold Rdiv. rewrite Rmult_assoc, Rinv_l by lra. lra.
Qed.
Lemma gd_terms p mg : physical p -> 0 <= mg -> 0 <= 6 / PI * (612 / 10000000) / (rhog p * grav p * (mean_size p * mean_size p)) /\
  0 <= 7388 / 10 / (rhow p * grav p * mean_size p) /\ 0 <= exp (- (1 / 10) * mg / w15 p) * Rmax (mg - 1 / 2 * w15 p) 0.
Proof.
  intros H Hm. destruct H as [H1 [H2 [H3 [H4 [H5 [H6 [H7 [H8 [H9 H10]]]]]]]]]. pose proof PI_RGT_0. repeat split.
  - apply div_nn; [apply Rmult_le_pos; [apply div_nn; lra|lra]|]. apply Rmult_lt_0_compat; apply Rmult_lt_0_compat; lra.
  - apply div_nn; [lra|]. apply Rmult_lt_0_compat; [apply Rmult_lt_0_compat|]; lra.
  - apply Rmult_le_pos; [left; apply exp_pos|apply Rmax_r].
Qed.

(** The raising formulations: well-formed, raising and increasing. *)
Lemma moist_good p me mg u : physical p -> raises me -> 0 < mg -> good_th u -> good_th (moist_threshold p me mg u) /\ ele u (moist_threshold p me mg u).
Proof.
  intros Hp Hr Hm Hu. assert (Hp' := Hp). destruct Hp as [H1 [H2 [H3 [H4 [H5 [H6 [H7 [H8 [H9 H10]]]]]]]]].
  assert (Hq : 0 <= mg / w15 p) by (apply div_nn; lra).
  assert (Hq2 : 0 <= mg / w15 p * (mg / w15 p)) by (now apply Rmult_le_pos).
  destruct me; cbn [raises] in Hr; try contradiction; cbn [moist_threshold].
  - assert (1 <= Rmax 1 (18 / 10 + 6 / 10 * log10 (mg * 100))) by apply Rmax_l. split; [apply good_mul; [assumption|lra]|now apply mul_raise].
  - split; [apply good_add|apply add_raise]; try assumption; lra.
  - assert (0 <= 6 / 10 * (mg * mg) / (rhoa p * (w15 p * w15 p))).
    { apply div_nn; [nra|]. apply Rmult_lt_0_compat; [assumption|]. now apply Rmult_lt_0_compat. }
    split; [now apply good_chepil|now apply chepil_raise].
  - assert (0 <= 22 / 1000 * mg / w15 p) by (apply div_nn; lra). split; [apply good_add|apply add_raise]; try assumption; lra.
  - assert (1 <= exp (227 / 10 * mg)) by (apply exp_ge_1; lra). split; [apply good_mul; [assumption|lra]|now apply mul_raise].
  - pose proof (dong_K_pos (mean_size p * 1000)). assert (0 < dong_K (mean_size p * 1000) * 100 * mg) by (apply Rmult_lt_0_compat; lra).
    assert (1 <= sqrt (1 + dong_K (mean_size p * 1000) * 100 * mg)) by (apply sqrt_ge_1; lra). split; [apply good_mul; [assumption|lra]|now apply mul_raise].
  - destruct (gd_terms p mg Hp') as [T1 [T2 T3]]; [lra|].
    assert (0 <= 7388 / 10 / (rhow p * grav p * mean_size p) * exp (- (1 / 10) * mg / w15 p) * Rmax (mg - 1 / 2 * w15 p) 0) by (rewrite Rmult_assoc; now apply Rmult_le_pos).
    match goal with |- context [Fin (sqrt ?x)] => assert (1 <= sqrt x) by (apply sqrt_ge_1; lra) end.
    split; [apply good_mul; [assumption|lra]|now apply mul_raise].
Qed.
Lemma moist_mono p me mg mg' u : physical p -> raises me -> 0 < mg -> mg <= mg' -> (me = GregoryDarwish -> mg' <= 105 / 10 * w15 p) -> good_th u ->
  ele (moist_threshold p me mg u) (moist_threshold p me mg' u).
Proof.
  intros Hp Hr Hm Hl Hg Hu. assert (Hp' := Hp). destruct Hp as [H1 [H2 [H3 [H4 [H5 [H6 [H7 [H8 [H9 H10]]]]]]]]].
  assert (Hq : mg / w15 p <= mg' / w15 p) by (apply div_pos_le; lra).
  assert (Hq0 : 0 <= mg / w15 p) by (apply div_nn; lra).
  pose proof (sqr_mono _ _ Hq0 Hq) as Hq2.
  destruct me; cbn [raises] in Hr; try contradiction; cbn [moist_threshold].
  - apply mul_mono; [assumption| |].
    + apply Rlt_le_trans with 1; [lra|apply Rmax_l].
    + apply Rle_max_compat_l. pose proof (log10_mono (mg * 100) (mg' * 100)). lra.
  - apply add_mono; [assumption|lra].
  - assert (0 < rhoa p * (w15 p * w15 p)) by (apply Rmult_lt_0_compat; [assumption|now apply Rmult_lt_0_compat]).
    pose proof (sqr_mono mg mg'). apply chepil_mono; [assumption|apply div_nn; [nra|assumption]|apply div_pos_le; lra].
  - pose proof (div_pos_le (22 / 1000 * mg) (22 / 1000 * mg') (w15 p)). apply add_mono; [assumption|lra].
  - apply mul_mono; [assumption|apply exp_pos|apply exp_mono; lra].
  - pose proof (dong_K_pos (mean_size p * 1000)). assert (0 < dong_K (mean_size p * 1000) * 100 * mg) by (apply Rmult_lt_0_compat; lra).
    assert (dong_K (mean_size p * 1000) * 100 * mg <= dong_K (mean_size p * 1000) * 100 * mg') by (apply Rmult_le_compat_l; lra).
    apply mul_mono; [assumption|apply sqrt_lt_R0; lra|apply sqrt_le_1_alt; lra].
  - destruct (gd_terms p mg Hp') as [T1 [T2 T3]]; [lra|]. pose proof (cohesion_mono (w15 p) mg mg' H7 Hm Hl (Hg eq_refl)) as C.
    pose proof (Rmult_le_compat_l _ _ _ T2 C) as C2. pose proof (Rmult_le_pos _ _ T2 T3) as C3.
    apply mul_mono; [assumption|apply sqrt_lt_R0|apply sqrt_le_1_alt]; rewrite ?(Rmult_assoc (7388 / 10 / (rhow p * grav p * mean_size p))); lra.
Qed.

Lemma mass_content_mono p a b : physical p -> a <= b -> mass_content p a <= mass_content p b.
Proof.
  intros [H1 [H2 [H3 [H4 [H5 [H6 [H7 [H8 [H9 H10]]]]]]]]] H. unfold mass_content. apply div_pos_le; [apply Rmult_lt_0_compat; lra|]. apply Rmult_le_compat_r; lra.
Qed.
Lemma is_moist_pos p mg : physical p -> is_moist p mg = true -> 0 < mg.
Proof.
  intros [H1 [H2 [H3 [H4 [H5 [H6 [H7 [H8 [H9 H10]]]]]]]]]. unfold is_moist. destruct (gtb_spec mg (resw_moist p * rhow p / (rhog p * (1 - porosity p)) + 5 / 1000)) as [L|L]; [|discriminate].
  intros _. assert (0 <= resw_moist p * rhow p / (rhog p * (1 - porosity p))); [|lra]. apply div_nn; [apply Rmult_le_pos; lra|apply Rmult_lt_0_compat; lra].
Qed.
Lemma moisture1_good p me x u : physical p -> raises me -> good_th u -> good_th (moisture1 p me x u) /\ ele u (moisture1 p me x u).
Proof.
  intros Hp Hr Hu. assert (R0 : ele u u) by (destruct Hu as [-> | [t [-> _]]]; cbn; [exact I|lra]).
  unfold moisture1. destruct (gtb _ (64 / 1000)).
  - split; [now left|]. destruct Hu as [-> | [t [-> _]]]; exact I.
  - destruct (is_moist p (mass_content p x)) eqn:E; [|split; assumption]. apply moist_good; try assumption. now apply is_moist_pos with p.
Qed.
Lemma moisture1_mono p me x y u : physical p -> raises me -> (me = GregoryDarwish -> 64 / 1000 <= 105 / 10 * w15 p) -> x <= y -> good_th u ->
  ele (moisture1 p me x u) (moisture1 p me y u).
Proof.
  intros Hp Hr Hg Hl Hu. pose proof (mass_content_mono p x y Hp Hl) as Hc.
  destruct (gtb_spec (mass_content p y) (64 / 1000)) as [L|L].
  - assert (E : moisture1 p me y u = PInf). { unfold moisture1. destruct (gtb_spec (mass_content p y) (64 / 1000)); [reflexivity|contradiction]. }
    rewrite E. destruct (moisture1_good p me x u Hp Hr Hu) as [[-> | [t [-> _]]] _]; exact I.
  - unfold moisture1. destruct (gtb_spec (mass_content p y) (64 / 1000)) as [L1|_]; [contradiction|].
    destruct (gtb_spec (mass_content p x) (64 / 1000)) as [L2|_]; [lra|].
    assert (R0 : ele u u) by (destruct Hu as [-> | [t [-> _]]]; cbn; [exact I|lra]).
    destruct (is_moist p (mass_content p x)) eqn:Ex, (is_moist p (mass_content p y)) eqn:Ey.
    + apply moist_mono; try assumption; [now apply is_moist_pos with p|]. intros G. specialize (Hg G). lra.
    + exfalso. unfold is_moist in Ex, Ey. destruct (gtb_spec (mass_content p x) (resw_moist p * rhow p / (rhog p * (1 - porosity p)) + 5 / 1000)); [|discriminate].
      destruct (gtb_spec (mass_content p y) (resw_moist p * rhow p / (rhog p * (1 - porosity p)) + 5 / 1000)); [discriminate|]. lra.
    + apply moist_good; try assumption. now apply is_moist_pos with p.
    + exact R0.
Qed.
Lemma moisture1_wet p me x u : 64 / 1000 < mass_content p x -> moisture1 p me x u = PInf.
Proof. intros H. unfold moisture1. destruct (gtb_spec (mass_content p x) (64 / 1000)); [reflexivity|contradiction]. Qed.

(** ** The whole computation *)
(** [rel u v]: v is a threshold not below u. *)
Definition rel (u v : ext) : Prop := good_th v /\ ele u v.
Lemma rel_map (f : ext -> ext) us vs : (forall v, good_th v -> good_th (f v) /\ ele v (f v)) -> Forall2 rel us vs -> Forall2 rel us (map f vs).
Proof.
  intros Hf H. induction H as [|u v us vs [G L] H IH]; cbn; constructor; [|exact IH].
  destruct (Hf v G) as [G' L']. split; [exact G'|]. now apply ele_trans with v.
Qed.
Lemma rel_refl us : Forall good_th us -> Forall2 rel us us.
Proof. induction 1 as [|u us G H IH]; constructor; [|exact IH]. split; [exact G|]. destruct G as [-> | [t [-> _]]]; cbn; [exact I|lra]. Qed.

Lemma grainsize_eq p : physical p -> grainsize p = map (fun d => Fin (Aa p * sqrt ((rhog p - rhoa p) / rhoa p * grav p * d))) (grain_size p).
Proof.
  intros [H1 [H2 [H3 [H4 [H5 [H6 [H7 [H8 [H9 H10]]]]]]]]]. unfold grainsize, compute_grainsize. rewrite map_map. apply map_ext_in. intros d Hd.
  assert (0 < d) by (rewrite Forall_forall in H9; now apply H9).
  assert (0 <= (rhog p - rhoa p) / rhoa p * grav p * d) by (apply Rmult_le_pos; [apply Rmult_le_pos; [apply div_nn|]|]; lra).
  cbn. destruct (Rlt_dec ((rhog p - rhoa p) / rhoa p * grav p * d) 0); [lra|reflexivity].
Qed.
Lemma grainsize_good p : physical p -> Forall good_th (grainsize p).
Proof.
  intros Hp. rewrite grainsize_eq by exact Hp. apply Forall_forall. intros u Hu. apply in_map_iff in Hu. destruct Hu as [d [<- Hd]].
  right. eexists. split; [reflexivity|]. destruct Hp as [H1 _]. apply Rmult_le_pos; [lra|apply sqrt_pos].
Qed.
Lemma rsuml_nn l : Forall (fun x => 0 <= x) l -> 0 <= rsuml l.
Proof. induction 1; cbn; [lra|]. change (0 <= x + rsuml l). lra. Qed.
Lemma immobile_range us u l : Forall (fun x => 0 <= x) l -> 0 <= immobile us u l <= rsuml l.
Proof.
  revert u. induction l as [|x l IH]; intros [|v u] H; cbn [immobile]; try (cbn; lra).
  - split; [lra|]. now apply rsuml_nn.
  - inversion H; subst. specialize (IH u H3). change (rsuml (x :: l)) with (x + rsuml l). destruct (eleb (Fin us) v); lra.
Qed.
Lemma shelter_ge p mm g : mild p mm -> 0 <= g <= 1 -> exists f, shelter_factor p mm g = Fin f /\ 1 <= f.
Proof.
  intros [M1 [M2 [M3 M4]]] [G0 G1]. unfold shelter_factor.
  assert (P : 1 <= (1 - mm * g) * (1 + mm * beta p / sigma p * g)).
  { set (b := beta p / sigma p). replace (mm * beta p / sigma p * g) with (mm * g * b) by (unfold b; field; lra).
    set (x := mm * g). assert (Hx : 0 <= x) by (now apply Rmult_le_pos). assert (Hx1 : x <= 1 - sigma p / beta p).
    { apply Rle_trans with mm; [|exact M4]. unfold x. rewrite <- (Rmult_1_r mm) at 2. now apply Rmult_le_compat_l. }
    assert (Hb : 0 < b) by (unfold b, Rdiv; apply Rmult_lt_0_compat; [assumption|now apply Rinv_0_lt_compat]).
    assert (Hb1 : 1 <= b * (1 - x)).
    { apply Rle_trans with (b * (sigma p / beta p)); [unfold b; right; field; lra|]. apply Rmult_le_compat_l; lra. }
    assert (0 <= x * (b * (1 - x) - 1)) by (apply Rmult_le_pos; lra). lra. }
  eexists. split; [cbn; destruct (Rlt_dec ((1 - mm * g) * (1 + mm * beta p / sigma p * g)) 0) as [C|_]; [exfalso; lra|reflexivity]|]. now apply sqrt_ge_1.
Qed.
Lemma salt_ge p s : 0 <= csalt p -> s <= 1 -> 1 <= salt_factor p s.
Proof.
  intros Hc Hs. unfold salt_factor. assert (1 <= exp (1027 / 10000 * 1000 * (csalt p * (1 - s)))).
  { apply exp_ge_1. apply Rmult_le_pos; [lra|]. apply Rmult_le_pos; lra. } lra.
Qed.
Lemma good_ele_PInf v : good_th v -> ele v PInf.
Proof. intros [-> | [t [-> _]]]; exact I. Qed.

Lemma compute_raise p c t : physical p -> surface c -> 0 <= csalt p -> computes p ->
  (th_moisture p = true -> exists me, method_of (method_moist_threshold p) = Some me /\ raises me) ->
  (th_sheltering p = true -> exists mm, m p = Some mm /\ mild p mm) ->
  exists t', compute p c t = Ok t' /\ uth0 t' = map (fun d => Fin (Aa p * sqrt ((rhog p - rhoa p) / rhoa p * grav p * d))) (grain_size p) /\
    Forall2 (fun dry u => good_th u /\ ele dry u) (uth0 t') (uth t') /\ Forall2 (fun dry u => good_th u /\ ele dry u) (uth0 t') (uthf t').
Proof.
  intros Hp Hc Hs [P1 [P2 [P3 [P4 P5]]]] Hm Hsh. destruct Hc as [C1 [C2 [C3 [C4 C5]]]].
  unfold compute. rewrite P1, P2, P3, P4, P5. cbn [andb negb uth uth0 uthf].
  assert (S1 : exists u1, (if th_moisture p then compute_moisture p (moist c) (grainsize p)
      else Ok (if (process_tide p && ltb (zb c - zs c) (- eps p))%bool then map (fun _ => PInf) (grainsize p) else grainsize p)) = Ok u1 /\ Forall2 rel (grainsize p) u1).
  { pose proof (rel_refl _ (grainsize_good p Hp)) as R0. destruct (th_moisture p).
    - destruct (Hm eq_refl) as [me [E1 E2]]. unfold compute_moisture. rewrite E1. eexists. split; [reflexivity|]. apply rel_map; [|exact R0].
      intros v G. now apply moisture1_good.
    - eexists. split; [reflexivity|]. destruct (process_tide p && ltb (zb c - zs c) (- eps p))%bool; [|exact R0].
      apply rel_map; [|exact R0]. intros v G. split; [now left|now apply good_ele_PInf]. }
  destruct S1 as [u1 [-> R1]]. cbn [bind].
  assert (R2 : Forall2 rel (grainsize p) (if th_salt p then compute_salt p (salt c) u1 else u1)).
  { destruct (th_salt p); [|exact R1]. apply rel_map; [|exact R1]. intros v G. pose proof (salt_ge p (salt c) Hs C3).
    split; [apply good_mul; [exact G|lra]|now apply mul_raise]. }
  set (u2 := if th_salt p then compute_salt p (salt c) u1 else u1) in *. clearbody u2.
  assert (S3 : exists u3, (if th_sheltering p then compute_sheltering p (ustar c) (mass c) u2 else Ok u2) = Ok u3 /\ Forall2 rel (grainsize p) u3).
  { destruct (th_sheltering p); [|eexists; split; [reflexivity|exact R2]]. destruct (Hsh eq_refl) as [mm [E M]]. unfold compute_sheltering. rewrite E.
    eexists. split; [reflexivity|]. destruct (shelter_ge p mm (immobile (ustar c) u2 (mass c) / rsuml (mass c)) M) as [f [Ef Hf]].
    - pose proof (immobile_range (ustar c) u2 (mass c) C1). split; [apply div_nn; lra|].
      apply Rmult_le_reg_r with (rsuml (mass c)); [exact C2|]. unfold Rdiv. rewrite Rmult_assoc, Rinv_l by lra. lra.
    - apply rel_map; [|exact R2]. intros v G. rewrite Ef. split; [apply good_mul; [exact G|lra]|now apply mul_raise]. }
  destruct S3 as [u3 [-> R3]]. cbn [bind].
  assert (R4 : Forall2 rel (grainsize p) (map (fun x => eadd (emul x (Fin (fst (mask c)))) (Fin (snd (mask c)))) u3)).
  { apply rel_map; [|exact R3]. intros v G. assert (G' : good_th (emul v (Fin (fst (mask c))))) by (apply good_mul; [exact G|lra]).
    split; [now apply good_add|]. apply ele_trans with (emul v (Fin (fst (mask c)))); [now apply mul_raise|now apply add_raise]. }
  set (u4 := map (fun x => eadd (emul x (Fin (fst (mask c)))) (Fin (snd (mask c)))) u3) in *. clearbody u4.
  eexists. split; [reflexivity|]. destruct (th_nelayer p); cbn [uth uth0 uthf]; (split; [now apply grainsize_eq|]); (split; [|exact R4]).
  - unfold non_erodible. destruct (leb (zb c) (ne c + 1 / 100)); [|exact R4]. apply rel_map; [|exact R4]. intros v G. split; [now left|now apply good_ele_PInf].
  - exact R4.
Qed.

(** History. *)
Lemma compute_fresh p c t t' : process_threshold p = true -> threshold_file p = false -> th_grainsize p = true -> compute p c t = compute p c t'.
Proof.
  intros P1 P2 P3. unfold compute. rewrite P1, P2, P3. reflexivity.
Qed.

(** Non-erodible cells. *)
Lemma compute_ne p p' c t t' : th_nelayer p = true -> compute p c t = Ok t' -> same_but_ne p p' ->
  exists t0, compute p' c t = Ok t0 /\ length (uth t') = length (uth t0) /\ uth0 t' = uth0 t0 /\ uthf t' = uthf t0 /\
    (zb c <= ne c + 1 / 100 -> Forall (fun u => u = PInf) (uth t')) /\ (ne c + 1 / 100 < zb c -> uth t' = uth t0).
Proof.
  intros Hn E ->. unfold compute in *. rewrite Hn in E. cbn [process_threshold threshold_file th_grainsize th_moisture th_drylayer th_humidity th_salt th_sheltering th_nelayer process_tide eps] in *.
  match type of E with bind ?X _ = _ => change (exists t0, bind X (fun t1 => Ok t1) = Ok t0 /\ length (uth t') = length (uth t0) /\ uth0 t' = uth0 t0 /\ uthf t' = uthf t0 /\
    (zb c <= ne c + 1 / 100 -> Forall (fun u => u = PInf) (uth t')) /\ (ne c + 1 / 100 < zb c -> uth t' = uth t0)); destruct X as [t1|e] end; [|discriminate].
  cbn [bind] in *. apply Ok_inj in E. subst t'. exists t1. cbn [uth uth0 uthf]. split; [reflexivity|]. unfold non_erodible.
  destruct (leb_spec (zb c) (ne c + 1 / 100)) as [L|L].
  - repeat split; [apply map_length| |lra]. intros _. apply Forall_forall. intros u Hu. apply in_map_iff in Hu. destruct Hu as [v [<- _]]. reflexivity.
  - repeat split. intros H. contradiction.
Qed.

(** Infinite threshold: no concentration, whatever the wind. *)
Lemma inf_no_transport q tr rows g c c' : good_t q -> 0 < accfac q -> process_transport q = true -> 0 <= gu g -> 0 <= gustar g -> 0 < gd g ->
  guth g = PInf -> equilibrium q tr rows g c = Ok c' -> Cu c' = Fin 0.
Proof.
  intros Hq Ha Hp H1 H2 H3 Hi E. destruct (equilibrium_cu q tr rows g c c' Hq Ha Hp) as [x [Ex [_ [A [B _]]]]].
  - repeat split; try assumption. now left.
  - exact E.
  - rewrite Ex. f_equal. assert (C : tr = Dk \/ tr <> Dk) by (destruct tr; (left; reflexivity) || (right; congruence)). destruct C as [C|C].
    + apply B; [exact C|]. rewrite Hi. cbn. rewrite sgn_pos by lra. exact I.
    + apply A; [exact C|]. rewrite Hi. exact I.
Qed.

(** ** Grain speed *)
Lemma hypot_div a b h : 0 < h -> h = sqrt (a * a + b * b) -> (a / h) * (a / h) + (b / h) * (b / h) = 1.
Proof.
  intros Hh E. assert (E2 : h * h = a * a + b * b) by (rewrite E; apply sqrt_sqrt; pose proof (Rle_0_sqr a); pose proof (Rle_0_sqr b); unfold Rsqr in *; lra).
  replace ((a / h) * (a / h) + (b / h) * (b / h)) with ((a * a + b * b) / (h * h)) by (field; lra). rewrite <- E2. field. lra.
Qed.
Lemma constant_dir uw uws uwn us usn uv : uw = sqrt (uws * uws + uwn * uwn) -> uv = sqrt (us * us + usn * usn) ->
  let '(s, n, u) := constant_grainspeed uw uws uwn us usn uv in
  (0 < uv -> s * uv = us /\ n * uv = usn /\ u = 1) /\
  (uv = 0 -> 0 < uw -> s * uw = uws /\ n * uw = uwn /\ u = 1) /\
  (uv = 0 -> uw = 0 -> s = 0 /\ n = 0 /\ u = 0).
Proof.
  intros Ew Ev. unfold constant_grainspeed. repeat split; intros.
  - destruct (neqb_spec uv 0); [|lra]. field. lra.
  - destruct (neqb_spec uv 0); [|lra]. field. lra.
  - destruct (neqb_spec uv 0); [|lra]. rewrite !Rmult_1_l. rewrite hypot_div by assumption. apply sqrt_1.
  - destruct (neqb_spec uv 0); [lra|]. destruct (neqb_spec uw 0); [|lra]. field. lra.
  - destruct (neqb_spec uv 0); [lra|]. destruct (neqb_spec uw 0); [|lra]. field. lra.
  - destruct (neqb_spec uv 0); [lra|]. destruct (neqb_spec uw 0); [|lra]. rewrite !Rmult_1_l. rewrite hypot_div by assumption. apply sqrt_1.
  - destruct (neqb_spec uv 0); [lra|]. destruct (neqb_spec uw 0); [lra|reflexivity].
  - destruct (neqb_spec uv 0); [lra|]. destruct (neqb_spec uw 0); [lra|reflexivity].
  - destruct (neqb_spec uv 0); [lra|]. destruct (neqb_spec uw 0); [lra|]. rewrite Rmult_0_l, Rplus_0_l. exact sqrt_0.
Qed.

(** In the separation bubble the speed is 0.1 m/s along the shear, whatever the slope. *)
Lemma duran_bubble q uth0 uw uws uwn ustar ustars ustarn dhs dhn : 5 / 100 <= ustar -> ustar = sqrt (ustars * ustars + ustarn * ustarn) ->
  let '(s, n, u) := duran_grainspeed q uth0 uw uws uwn ustar ustars ustarn dhs dhn true in s * ustar = 1 / 10 * ustars /\ n * ustar = 1 / 10 * ustarn /\ u = 1 / 10.
Proof.
  intros H E. unfold duran_grainspeed, d_dir. destruct (Rle_dec (5 / 100) ustar); [|lra]. split; [field; lra|]. split; [field; lra|].
  replace (1 / 10 * (ustars / ustar) * (1 / 10 * (ustars / ustar)) + 1 / 10 * (ustarn / ustar) * (1 / 10 * (ustarn / ustar))) with ((1 / 10) * (1 / 10) * ((ustars / ustar) * (ustars / ustar) + (ustarn / ustar) * (ustarn / ustar))) by ring.
  replace ((ustars / ustar) * (ustars / ustar) + (ustarn / ustar) * (ustarn / ustar)) with 1.
  - rewrite Rmult_1_r. apply sqrt_square. lra.
  - assert (E2 : ustar * ustar = ustars * ustars + ustarn * ustarn).
    { rewrite E at 1 2. apply sqrt_sqrt. pose proof (Rle_0_sqr ustars) as A. pose proof (Rle_0_sqr ustarn) as B. unfold Rsqr in A, B. lra. }
    replace ((ustars / ustar) * (ustars / ustar) + (ustarn / ustar) * (ustarn / ustar)) with ((ustars * ustars + ustarn * ustarn) / (ustar * ustar)) by (field; lra). rewrite <- E2. field. lra.
Qed.

Lemma d_srho_gt q : good_d q -> 0 < d_srho q - 1.
Proof.
  intros [H1 [H2 [H3 _]]]. unfold d_srho. replace (drhog q / drhoa q - 1) with ((drhog q - drhoa q) / drhoa q) by (field; lra).
  unfold Rdiv. apply Rmult_lt_0_compat; [lra|now apply Rinv_0_lt_compat].
Qed.
Lemma d_alpha_pos q : good_d q -> 0 < d_alpha q.
Proof.
  intros H. unfold d_alpha, Rdiv. destruct H as [_ [_ [_ [_ [_ [_ H]]]]]]. apply Rmult_lt_0_compat; [lra|]. apply Rinv_0_lt_compat. apply exp_pos.
Qed.
Lemma d_uf_pos q : good_d q -> 0 < d_uf q.
Proof.
  intros H. pose proof (d_srho_gt q H) as Hs. pose proof (d_alpha_pos q H) as Ha. destruct H as [H1 [H2 [H3 [H4 [H5 [H6 H7]]]]]].
  unfold d_uf. apply sqrt_lt_R0. assert (0 < d_Cd q).
  { unfold d_Cd. assert (0 < d_S q).
    { unfold d_S. apply Rmult_lt_0_compat; [unfold Rdiv; apply Rmult_lt_0_compat; [lra|apply Rinv_0_lt_compat; lra]|]. apply sqrt_lt_R0.
      apply Rmult_lt_0_compat; [apply Rmult_lt_0_compat|]; lra. }
    assert (0 <= sqrt (2 * d_alpha q) * (512 / 100) / d_S q) by (apply div_nn; [apply Rmult_le_pos; [apply sqrt_pos|lra]|assumption]).
    apply Rmult_lt_0_compat; [lra|]. apply Rmult_lt_0_compat; lra. }
  apply Rmult_lt_0_compat; [|lra]. apply Rmult_lt_0_compat; [|lra]. apply Rmult_lt_0_compat; [|lra]. unfold Rdiv. apply Rmult_lt_0_compat; [lra|apply Rinv_0_lt_compat; lra].
Qed.
(** On a flat bed below the threshold of the dry bed the grains of Duran's formulation move against the wind. *)
Lemma duran_upwind q uth0 uw ust : good_d q -> 5 / 100 <= ust -> ust < uth0 ->
  exists v, 0 < v /\ duran_grainspeed q uth0 uw uw 0 ust ust 0 0 0 false = (- v, 0, v).
Proof.
  intros Hq H5 Hlt. pose proof (d_alpha_pos q Hq) as Ha. pose proof (d_uf_pos q Hq) as Hu.
  exists (d_uf q / sqrt (2 * d_alpha q)). assert (Hs : 0 < sqrt (2 * d_alpha q)) by (apply sqrt_lt_R0; lra).
  assert (Hv : 0 < d_uf q / sqrt (2 * d_alpha q)) by (unfold Rdiv; apply Rmult_lt_0_compat; [assumption|now apply Rinv_0_lt_compat]).
  split; [exact Hv|]. unfold duran_grainspeed, d_dir, d_ueff.
  destruct (Rle_dec (5 / 100) ust) as [_|]; [|lra]. destruct (Rle_dec uth0 ust); [lra|].
  replace (ust / ust) with 1 by (field; lra). replace (0 / ust) with 0 by (unfold Rdiv; ring).
  replace ((1 + 2 * d_alpha q * 0) * (1 + 2 * d_alpha q * 0) + (0 + 2 * d_alpha q * 0) * (0 + 2 * d_alpha q * 0)) with 1 by ring. rewrite sqrt_1.
  set (v := d_uf q / sqrt (2 * d_alpha q)) in *.
  assert (E1 : (0 - d_uf q / (sqrt (2 * d_alpha q) * 1)) * 1 - sqrt (2 * d_alpha q) * d_uf q / 1 * 0 = - v) by (unfold v; field; lra).
  assert (E2 : (0 - d_uf q / (sqrt (2 * d_alpha q) * 1)) * 0 - sqrt (2 * d_alpha q) * d_uf q / 1 * 0 = 0) by ring.
  rewrite E1, E2. f_equal. replace (- v * - v + 0 * 0) with (v * v) by ring. apply sqrt_square. lra.
Qed.
