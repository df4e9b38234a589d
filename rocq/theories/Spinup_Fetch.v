(** Transport grows downwind of the boundary. *)
From Coq Require Import QArith Qpower Lia Lqa List Bool Arith Setoid.
From Verif Require Import Base Num Utils_Model Solver_Model Solver_Spec Linear Solver_Proofs Solver_Iter Solver_Balance Solver_Cases Causal_Spec Causal_Proofs Spinup_Spec Spinup_Proofs Spinup_Runs.
Import ListNotations.
Open Scope Q_scope.

Lemma dominant_ge n (e a : nat -> Q) (p q : nat -> nat) b1 b2 : 0 <= b1 -> 0 <= b2 -> (forall r, (r <= n)%nat -> (p r <= n)%nat /\ (q r <= n)%nat /\ b1 + b2 < a r /\ b1 * e (p r) + b2 * e (q r) <= a r * e r) ->
  forall r, (r <= n)%nat -> 0 <= e r.
Proof.
  intros H1 H2 H. destruct (largest n (fun r => - e r)) as (m & Hm & Hx). cbv beta in Hx. destruct (H m Hm) as (Hp & Hq & Ha & E). pose proof (Hx _ Hp) as Lp. pose proof (Hx _ Hq) as Lq.
  assert (0 <= e m). { destruct (Qlt_le_dec (e m) 0) as [L|]; [|assumption]. exfalso. pose proof (mul_nn b1 (e (p m) - e m) H1 ltac:(lra)). pose proof (mul_nn b2 (e (q m) - e m) H2 ltac:(lra)). pose proof (mul_pos (a m - b1 - b2) (- e m) ltac:(lra) ltac:(lra)). lra. }
  intros r Hr. specialize (Hx r Hr). lra.
Qed.
Lemma posed_offshore k f : quiet_ends k f -> lateral k = Circular /\ (offshore k = Flux \/ offshore k = Constant \/ trunk k = true /\ offshore k = Noflux).
Proof. intros [(A & _ & C) | ((A & _ & C) & _)]; tauto. Qed.

Lemma cell_algebra u l : forall al v as_ an x0 x1 xp xn on ti C L (z : bool), al == 1 -> l == on * L ->
  - (al * as_ * u) * x0 + (on + al * (as_ * u + an * qabs v + ti)) * x1 + (if z then 0 else - (al * an) * (v * upw v) * xp + al * an * (v * (1 - upw v)) * xn) == l + ti * C ->
  (z = true -> v == 0) ->
  (on + as_ * u + an * qmax v 0 + an * qmax (- v) 0 + ti) * x1 == as_ * u * x0 + an * qmax v 0 * xp + an * qmax (- v) 0 * xn + on * L + ti * C.
Proof.
  intros al v as_ an x0 x1 xp xn on ti C L z Ha El E Z.
  assert (V1 : qmax v 0 == v * upw v) by (unfold qmax, upw; destruct (Qle_bool_spec v 0), (Qle_bool_spec 0 v); lra).
  assert (V2 : qmax (- v) 0 == - (v * (1 - upw v))) by (unfold qmax, upw; destruct (Qle_bool_spec (- v) 0), (Qle_bool_spec 0 v); lra).
  assert (V3 : qabs v == qmax v 0 + qmax (- v) 0) by (rewrite V1, V2, <- sgn_abs; unfold sgn; ring).
  destruct z.
  - specialize (Z eq_refl). assert (Z1 : qmax v 0 == 0) by (unfold qmax; destruct (Qle_bool_spec v 0); lra). assert (Z2 : qmax (- v) 0 == 0) by (unfold qmax; destruct (Qle_bool_spec (- v) 0); lra).
    rewrite V3, Z1, Z2, Ha, El in E. rewrite Z1, Z2. lra.
  - rewrite V3, Ha, El, <- V1 in E. setoid_replace (v * (1 - upw v)) with (- qmax (- v) 0) in E by (rewrite V2; ring). lra.
Qed.

(** The equation of one cell in an even wind. *)
Section Even.
Variables (k : cfg) (f : flow) (u : Q).
Hypothesis Hs : sensible k.
Hypothesis Hrect : rectangular k f.
Hypothesis Hlat : lateral_uniform k f.
Hypothesis Hq : quiet_ends k f.
Hypothesis Himp : fully_implicit k.
Hypothesis Hside : no_side_wind_in_1d k f.
Hypothesis Hw : even_wind k f u.
Let vp (j : nat) := tstep k / dn f 0%nat 0%nat * qmax (un f 0%nat j) 0.
Let vm (j : nat) := tstep k / dn f 0%nat 0%nat * qmax (- un f 0%nat j) 0.
Let a (j : nat) := tstep k / ds f 0%nat j * u.
Lemma a_pos j : (j <= nx k)%nat -> 0 < a j.
Proof. intros Hj. unfold a. apply mul_pos; [|apply Hw]. apply Qlt_shift_div_l; [apply (hs_pos k f Hrect j Hj) | pose proof (ts_pos k Hs); lra]. Qed.
Lemma v_nn j : 0 <= vp j /\ 0 <= vm j.
Proof.
  assert (0 <= tstep k / dn f 0%nat 0%nat) by (apply Qle_shift_div_l; [apply (h_pos k f Hrect) | pose proof (ts_pos k Hs); lra]).
  split; (apply mul_nn; [exact H | apply qmax_r]).
Qed.
Lemma even_cell d w x r j : solves (cells k) (matrix k f) (rhs k f d w) x -> (r <= ny k)%nat -> (S j < nx k)%nat ->
  (one k + a (S j) + vp (S j) + vm (S j) + Ti k) * at_cell k x r (S j) ==
  a (S j) * at_cell k x r j + vp (S j) * at_cell k x (prev_row k r) (S j) + vm (S j) * at_cell k x (next_row k r) (S j)
  + one k * at_cell k (lCt d) r (S j) + Ti k * at_cell k (carries d w) r (S j).
Proof.
  intros Hx Hr Hj. destruct (posed_offshore k f Hq) as (Hcirc & Hoff). pose proof (Hx _ (rc_lt k r (S j) Hr ltac:(lia))) as E. destruct Hw as (Hu & Hw').
  rewrite (upwind_row k (nx k - 1) Hs Hcirc ltac:(lia) f x r j Hrect Hlat Hr ltac:(lia)) in E by (rewrite Hw' by lia; lra).
  rewrite (rhs_implicit k f d Himp w r (S j) Hr ltac:(lia) Hj) in E. rewrite (Hw' r j Hr ltac:(lia)), (Hw' r (S j) Hr ltac:(lia)) in E.
  assert (Hi1 : implicitness k == 1) by (unfold implicitness; destruct (trunk k) eqn:Et; [apply Himp, Et | reflexivity]).
  assert (El : (if trunk k then lCt d (r * width k + S j)%nat else 0) == one k * at_cell k (lCt d) r (S j)) by (unfold one, at_cell; fold (width k); destruct (trunk k); ring).
  change (w (r * width k + S j)%nat * capacity d (r * width k + S j)) with (at_cell k (carries d w) r (S j)) in E.
  revert El E. generalize (if trunk k then lCt d (r * width k + S j)%nat else 0). intros l El E. unfold vp, vm, a.
  assert (Z0 : Nat.eqb (ny k) 0 = true -> un f 0%nat (S j) == 0) by (intros Hz; apply Nat.eqb_eq in Hz; apply Hside; [exact Hz | lia]).
  revert Hi1 El E Z0. generalize (implicitness k) (un f 0%nat (S j)) (tstep k / ds f 0%nat (S j)) (tstep k / dn f 0%nat 0%nat) (at_cell k x r j) (at_cell k x r (S j)) (at_cell k x (prev_row k r) (S j)) (at_cell k x (next_row k r) (S j)) (one k) (Ti k) (at_cell k (carries d w) r (S j)) (at_cell k (lCt d) r (S j)) (Nat.eqb (ny k) 0).
  apply cell_algebra.
Qed.
Lemma even_first d w x r : solves (cells k) (matrix k f) (rhs k f d w) x -> (r <= ny k)%nat ->
  at_cell k x r 0 == prescribed (offshore k) (offshore_flux k) (constant_offshore_flux k) (at_cell k (Cu0 d) r 0) (uu f r 0%nat).
Proof.
  intros Hx Hr. destruct (posed_offshore k f Hq) as (Hcirc & Hoff). pose proof Hs as (_ & Hnx & _). pose proof (Hx _ (rc_lt k r 0 Hr ltac:(lia))) as E. rewrite (first_row k (nx k - 1) Hs Hoff ltac:(lia)) in E by assumption. rewrite E. rewrite rhs_rc by lia. cbv zeta.
  destruct (Nat.eqb_spec 0 (nx k)); [lia|]. reflexivity.
Qed.
Lemma one_nn : 0 <= one k.
Proof. unfold one. destruct (trunk k); lra. Qed.

(** * Growth *)
Section Growth.
Variables (h v B : Q) (d : input) (w x : nat -> Q).
Hypothesis Hcells : equal_cells k f h.
Hypothesis Hv : forall r c, (r <= ny k)%nat -> (c <= nx k)%nat -> un f r c == v.
Hypothesis Hx : solves (cells k) (matrix k f) (rhs k f d w) x.
Hypothesis HB : enters k f d B.
Hypothesis Hair : trunk k = true -> rising k B (lCt d).
Hypothesis Hcap : rising k B (carries d w).
Lemma coeff_same j : (j <= nx k)%nat -> a j == a 1%nat /\ vp j == vp 1%nat /\ vm j == vm 1%nat.
Proof.
  intros Hj. pose proof Hs as (_ & Hnx & _). unfold a, vp, vm. rewrite (Hcells 0%nat j), (Hcells 0%nat 1%nat) by lia. pose proof (Hv 0%nat j ltac:(lia) Hj) as E. pose proof (Hv 0%nat 1%nat ltac:(lia) ltac:(lia)) as E'.
  assert (M : forall p q, p == q -> qmax p 0 == qmax q 0) by (intros p q Eq; unfold qmax; destruct (Qle_bool_spec p 0), (Qle_bool_spec q 0); lra).
  rewrite (M _ _ E), (M _ _ E'). rewrite (M (- un f 0%nat j) (- v)) by (rewrite E; reflexivity). rewrite (M (- un f 0%nat 1%nat) (- v)) by (rewrite E'; reflexivity). repeat split.
Qed.
Lemma growth : forall j r, (r <= ny k)%nat -> (S j < nx k)%nat -> at_cell k x r j <= at_cell k x r (S j).
Proof.
  pose proof one_nn as On. pose proof (Ti_pos k Hs) as HT. pose proof Hs as (_ & Hnx & _).
  assert (Hl : forall r, (r <= ny k)%nat -> 0 <= one k * (at_cell k (lCt d) r 1 - B)).
  { intros r Hr. unfold one in *. destruct (trunk k) eqn:Et; [|lra]. destruct (Hair eq_refl) as (A & _). specialize (A r Hr). lra. }
  assert (Hl' : forall r c, (r <= ny k)%nat -> (1 <= c)%nat -> (S c < nx k)%nat -> 0 <= one k * (at_cell k (lCt d) r (S c) - at_cell k (lCt d) r c)).
  { intros r c Hr H1 H2. unfold one in *. destruct (trunk k) eqn:Et; [|lra]. destruct (Hair eq_refl) as (_ & A). specialize (A r c Hr H1 H2). lra. }
  assert (H0 : forall r, (r <= ny k)%nat -> at_cell k x r 0 == B) by (intros r Hr; rewrite (even_first d w x r Hx Hr); apply HB, Hr).
  destruct (v_nn 1%nat) as (P1 & P2). pose proof (a_pos 1%nat ltac:(lia)) as Pa.
  induction j as [|j IH]; intros r Hr Hj.
  - set (e := fun r => at_cell k x r 1 - B). enough (G : forall r, (r <= ny k)%nat -> 0 <= e r) by (specialize (G r Hr); unfold e in G; rewrite (H0 r Hr); lra).
    apply (dominant_ge (ny k) e (fun _ => one k + a 1%nat + vp 1%nat + vm 1%nat + Ti k) (prev_row k) (next_row k) (vp 1%nat) (vm 1%nat) P1 P2).
    intros s Hsr. split; [apply prev_row_le; exact Hsr|]. split; [apply next_row_le; exact Hsr|]. split; [lra|].
    pose proof (even_cell d w x s 0%nat Hx Hsr Hj) as E. rewrite (H0 s Hsr) in E. specialize (Hl s Hsr). destruct Hcap as (C & _). specialize (C s Hsr).
    pose proof (mul_nn (Ti k) (at_cell k (carries d w) s 1 - B) ltac:(lra) ltac:(lra)). unfold e. lra.
  - set (e := fun r => at_cell k x r (S (S j)) - at_cell k x r (S j)). enough (G : forall r, (r <= ny k)%nat -> 0 <= e r) by (specialize (G r Hr); unfold e in G; lra).
    apply (dominant_ge (ny k) e (fun _ => one k + a 1%nat + vp 1%nat + vm 1%nat + Ti k) (prev_row k) (next_row k) (vp 1%nat) (vm 1%nat) P1 P2).
    intros s Hsr. split; [apply prev_row_le; exact Hsr|]. split; [apply next_row_le; exact Hsr|]. split; [lra|].
    pose proof (even_cell d w x s (S j) Hx Hsr Hj) as E. pose proof (even_cell d w x s j Hx Hsr ltac:(lia)) as E'.
    destruct (coeff_same (S (S j)) ltac:(lia)) as (C1 & C2 & C3). destruct (coeff_same (S j) ltac:(lia)) as (C4 & C5 & C6). rewrite C1, C2, C3 in E. rewrite C4, C5, C6 in E'.
    specialize (Hl' s (S j) Hsr ltac:(lia) Hj). destruct Hcap as (_ & C). specialize (C s (S j) Hsr ltac:(lia) Hj).
    pose proof (mul_nn (Ti k) (at_cell k (carries d w) s (S (S j)) - at_cell k (carries d w) s (S j)) ltac:(lra) ltac:(lra)).
    pose proof (mul_nn (a 1%nat) (at_cell k x s (S j) - at_cell k x s j) ltac:(lra) ltac:(specialize (IH s Hsr ltac:(lia)); lra)). unfold e. lra.
Qed.
End Growth.

(** * The law of the steady state *)
Section Law.
Variables (B C : Q) (d : input) (w x : nat -> Q).
Hypothesis Ht : trunk k = false.
Hypothesis Hx : solves (cells k) (matrix k f) (rhs k f d w) x.
Hypothesis HB : enters k f d B.
Hypothesis Hcap : forall r c, inside k r c -> at_cell k (carries d w) r c == C.
Fixpoint profile (j : nat) : Q := match j with O => B | S j => (a (S j) * profile j + Ti k * C) / (a (S j) + Ti k) end.
Lemma follows_profile : forall j r, (r <= ny k)%nat -> (j < nx k)%nat -> at_cell k x r j == profile j.
Proof.
  pose proof (Ti_pos k Hs) as HT.
  induction j as [|j IH]; intros r Hr Hj. rewrite (even_first d w x r Hx Hr). apply HB, Hr.
  destruct (v_nn (S j)) as (P1 & P2). pose proof (a_pos (S j) ltac:(lia)) as Pa. set (Y := profile (S j)).
  assert (EY : (a (S j) + Ti k) * Y == a (S j) * profile j + Ti k * C) by (unfold Y; cbn [profile]; field; lra).
  set (e := fun r => at_cell k x r (S j) - Y). enough (G : forall r, (r <= ny k)%nat -> e r == 0) by (specialize (G r Hr); unfold e in G; lra).
  apply (dominant (ny k) e (fun _ => a (S j) + vp (S j) + vm (S j) + Ti k) (prev_row k) (next_row k) (vp (S j)) (vm (S j)) P1 P2).
  intros s Hsr. split; [apply prev_row_le; exact Hsr|]. split; [apply next_row_le; exact Hsr|]. split; [lra|].
  pose proof (even_cell d w x s j Hx Hsr Hj) as E. rewrite (IH s Hsr ltac:(lia)) in E. rewrite (Hcap s (S j) ltac:(unfold inside; lia)) in E. unfold one in E. rewrite Ht in E. unfold e. lra.
Qed.
Lemma fetch_law r j : (r <= ny k)%nat -> (S j < nx k)%nat -> (C - at_cell k x r (S j)) * (1 + ds f r (S j) / (u * T k)) == C - at_cell k x r j.
Proof.
  intros Hr Hj. rewrite (follows_profile (S j) r Hr Hj), (follows_profile j r Hr ltac:(lia)). cbn [profile]. destruct (Hrect r (S j) Hr ltac:(lia)) as (D1 & D2 & _). pose proof (Ti_pos k Hs) as HT.
  pose proof (hs_pos k f Hrect (S j) ltac:(lia)) as Hh. destruct Hw as (Hu & _). destruct Hs as (_ & _ & _ & HTp & _). rewrite D2. unfold a, Ti, tstep. rewrite Ht. set (P := profile j). set (hs := ds f 0%nat (S j)) in *.
  assert (N : 0 < hs + T k * u) by (pose proof (mul_pos (T k) u HTp Hu); lra). field. repeat split; lra.
Qed.
End Law.
End Even.

Lemma fetch_grows sp k f d w o h u v B : well_posed sp k f d w -> no_side_wind_in_1d k f -> uniform_wind k f u v -> 0 < u -> equal_cells k f h -> solve_fraction sp k f d w = Ok (Some o) -> converged o = true ->
  enters k f d B -> (trunk k = true -> rising k B (lCt d)) -> rising k B (carries d (weight o)) -> rising k B (ct o).
Proof.
  intros W Hside Hu Hup Hcells Ho Hc HB Hair Hcap. assert (Hnx : (2 <= nx k)%nat) by (destruct W as ((_ & Hnx & _) & _); exact Hnx). destruct (posed_solution _ _ _ _ _ _ W Ho Hc) as (_ & _ & S). destruct W as (W1 & W2 & W3 & W4 & W5 & W6 & _).
  assert (Hw : even_wind k f u) by (split; [exact Hup | intros r c Hr Hcc; apply Hu; assumption]).
  assert (G := growth k f u W1 W2 W3 W5 W6 Hside Hw h v B d (weight o) (ct o) Hcells (fun r c Hr Hcc => proj2 (Hu r c Hr Hcc)) S HB Hair Hcap).
  split. intros r Hr. specialize (G 0%nat r Hr ltac:(lia)). rewrite (even_first k f W1 W5 d (weight o) (ct o) r S Hr) in G. rewrite (HB r Hr) in G. exact G.
  intros r c Hr H1 H2. apply G; assumption.
Qed.
Lemma fetch_steady sp k f d w o u B C : trunk k = false -> well_posed sp k f d w -> no_side_wind_in_1d k f -> even_wind k f u -> solve_fraction sp k f d w = Ok (Some o) -> converged o = true ->
  enters k f d B -> (forall r c, inside k r c -> at_cell k (carries d (weight o)) r c == C) ->
  forall r c, (r <= ny k)%nat -> (S c < nx k)%nat -> at_cell k (ct o) r 0 == B /\ (C - at_cell k (ct o) r (S c)) * (1 + ds f r (S c) / (u * T k)) == C - at_cell k (ct o) r c.
Proof.
  intros Ht W Hside Hw Ho Hc HB Hcap r c Hr Hcc. destruct (posed_solution _ _ _ _ _ _ W Ho Hc) as (_ & _ & S). destruct W as (W1 & W2 & W3 & W4 & W5 & W6 & _). split.
  rewrite (even_first k f W1 W5 d (weight o) (ct o) r S Hr). apply HB, Hr.
  apply (fetch_law k f u W1 W2 W3 W5 W6 Hside Hw B C d (weight o) (ct o) Ht S HB Hcap r c Hr Hcc).
Qed.
Lemma fetch_length sp k f d w o u h B C : trunk k = false -> well_posed sp k f d w -> no_side_wind_in_1d k f -> even_wind k f u -> equal_cells k f h -> solve_fraction sp k f d w = Ok (Some o) -> converged o = true ->
  enters k f d B -> (forall r c, inside k r c -> at_cell k (carries d (weight o)) r c == C) ->
  forall r c, (r <= ny k)%nat -> (c < nx k)%nat -> (C - at_cell k (ct o) r c) * (1 + h / (u * T k)) ^ Z.of_nat c == C - B.
Proof.
  intros Ht W Hside Hw Hcells Ho Hc HB Hcap r c Hr. assert (Hs : sensible k) by (destruct W as (W1 & _); exact W1).
  assert (Hq : ~ 1 + h / (u * T k) == 0).
  { pose proof Hs as (_ & Hnx & _ & HT & _). destruct Hw as (Hu & _). destruct W as (_ & W2 & _). destruct (W2 0%nat 0%nat ltac:(lia) ltac:(lia)) as (D & _). rewrite (Hcells 0%nat 0%nat ltac:(lia) ltac:(lia)) in D.
    assert (0 < h / (u * T k)) by (apply Qlt_shift_div_l; [apply mul_pos; assumption | lra]). lra. }
  induction c as [|c IH]; intros Hcc.
  - pose proof Hs as (_ & Hnx & _). destruct (fetch_steady sp k f d w o u B C Ht W Hside Hw Ho Hc HB Hcap r 0%nat Hr ltac:(lia)) as (-> & _). cbn. ring.
  - destruct (fetch_steady sp k f d w o u B C Ht W Hside Hw Ho Hc HB Hcap r c Hr Hcc) as (_ & E). rewrite (Hcells r (S c) Hr ltac:(lia)) in E. rewrite power_S by exact Hq. rewrite <- (IH ltac:(lia)), <- E. ring.
Qed.
(** With ample sand nothing runs out. *)
Lemma ample_kept sp k f d w : well_posed sp k f d w -> max_iter k <> 0%nat -> ample k d w ->
  exists o, solve_fraction sp k f d w = Ok (Some o) /\ converged o = true /\ forall i, (i < number_of_cells k)%nat -> weight o i == w i.
Proof.
  intros W Hm Ha. destruct (posed_good _ _ _ _ _ W) as (Hsolv & Hinv). pose proof W as (W1 & W2 & W3 & W4 & W5 & W6 & W7 & W8 & W9 & W10 & W11).
  unfold ample, Solver_Spec.all_nonneg in *. pose proof W1 as (_ & _ & Hdt & HT & _).
  assert (Hw : forall i, (i < cells k)%nat -> 0 <= w i) by (intros i Hi; apply W11; rewrite <- cells_eq; exact Hi).
  set (x := sp (matrix k f) (rhs k f d w)).
  assert (Hx : solves (cells k) (matrix k f) (rhs k f d w) x) by (apply (sol_solves sp k f d W10 Hsolv w)).
  assert (Hnn : forall i, (i < cells k)%nat -> 0 <= x i) by (apply (sol_nonneg sp k f d W10 W1 Hsolv Hinv W6 W7 W8 w Hw)).
  destruct (one_iteration sp k f d w x) as (o & E & Hc & Hres); try assumption.
  - apply (quiet_runs k f W5).
  - apply sensible_offsets, W1.
  - intros i Hi. unfold short. destruct (Qltb_spec (max_error k) (demand k d w x i - mass d i)) as [L|]; [|reflexivity]. exfalso. rewrite cells_eq in Hi. specialize (Ha i Hi). rewrite <- cells_eq in Hi. specialize (Hnn i Hi). unfold demand in L.
    assert (0 <= x i / T k * dt k) by (apply mul_nn; [apply Qle_shift_div_l; lra | lra]). assert (Ed : (w i * Cu d i - x i) / T k * dt k == w i * Cu d i / T k * dt k - x i / T k * dt k) by (field; lra). lra.
  - exists o. split. exact E. split. exact Hc. intros i Hi. rewrite <- cells_eq in Hi. apply (Hres i Hi).
Qed.
