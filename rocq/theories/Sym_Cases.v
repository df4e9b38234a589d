(** Concrete cases for the symmetries of the transport. *)
From Coq Require Import QArith Lia Lqa List Bool Arith Setoid Permutation.
From Verif Require Import Base Num Utils_Model Utils_Spec Solver_Model Solver_Spec Linear Solver_Proofs Solver_Iter Solver_Balance Solver_Cases Sym_Spec Sym_Proofs Sym_Fractions.
Import ListNotations.
Open Scope Q_scope.

(** A well posed step on cells of one metre, by checking numbers. *)
Lemma posed k u v d w : sensible k -> lateral_uniform k (case_f u v) -> gathering k (case_f u v) -> prescribed_ends k -> (trunk k = true -> alpha k == 1) -> nonnegative_input k d -> 0 <= offshore_flux k -> 0 <= onshore_flux k ->
  0 <= constant_offshore_flux k -> 0 <= constant_onshore_flux k -> 0 < max_error k -> Solver_Spec.all_nonneg (number_of_cells k) w -> well_posed (gauss (number_of_cells k)) k (case_f u v) d w.
Proof.
  intros H1 H3 H4 H5 H6 H7 B1 B2 B3 B4 H9 H11. assert (H2 : rectangular k (case_f u v)) by apply case_rect. unfold well_posed.
  split; [exact H1|]. split; [exact H2|]. split; [exact H3|]. split; [exact H4|]. split; [left; exact H5|]. split; [exact H6|]. split; [exact H7|].
  split; [repeat split; try assumption; intros; cbn; lra|]. split; [exact H9|]. split; [apply gauss_exact; assumption | exact H11].
Qed.
(** The numbers of a result. *)
Definition air_shown (k : cfg) (x : result (option outcome)) : option (list Q) := match x with Ok (Some o) => Some (show k (ct o)) | _ => None end.

(** A coarse tolerance keeps the numbers small. *)
Definition coarse (e : Q) (k : cfg) : cfg := {| trunk := trunk k; ny := ny k; nx := nx k; dt := dt k; T := T k; alpha := alpha k; max_error := e; max_iter := max_iter k;
     offshore := offshore k; onshore := onshore k; lateral := lateral k; offshore_flux := offshore_flux k; onshore_flux := onshore_flux k;
     constant_offshore_flux := constant_offshore_flux k; constant_onshore_flux := constant_onshore_flux k |}.
(** ** Along the coast *)
Definition k135s : cfg := coarse (1 # 2) (case_k true 2 2 1 30 Flux Constant 0).
Definition sand32 : nat -> Q := fun i => if Nat.eqb i 4 then 0 else 10.
Definition d135 : input := case_d tens tens sand32 ones.
Definition f135 : flow := case_f (even 1) (even (-(1))).
Lemma posed135 : well_posed (gauss 9) k135s f135 d135 ones.
Proof.
  assert (H1 : sensible k135s) by (repeat split; cbn; try lia; lra).
  destruct (uniform_gathering _ _ _ _ (case_even k135s 1 (-(1)))) as (H3 & H4). specialize (H4 H1).
  apply (posed k135s); try assumption; try (cbn; lra).
  split; [left; reflexivity | split; [right; left; reflexivity | reflexivity]].
  apply case_input. intros i. unfold tens, sand32, ones. repeat split; try lra. destruct (Nat.eqb i 4); lra. intros i _. unfold ones. lra.
Qed.
Lemma along_solver k f row b : sensible k -> rectangular k f -> lateral_uniform k f -> gathering k f -> prescribed_ends k -> (forall r, (r <= ny k)%nat -> (row r <= ny k)%nat) ->
  exact_solver (number_of_cells k) (matrix k (flow_at row stay 1 b f)) (gauss (number_of_cells k)).
Proof. intros H1 H2 H3 H4 H5 H6. apply gauss_exact; try assumption. apply along_rect; assumption. apply along_lat; assumption. apply along_gathering; assumption. Qed.
Ltac posed_parts H := destruct H as (?P1 & ?P2 & ?P3 & ?P4 & ?P5 & ?P6 & ?P7 & ?P8 & ?P9 & ?P10 & ?P11).
Lemma c135_shift_case : well_posed (gauss 9) k135s f135 d135 ones /\ exact_solver (number_of_cells k135s) (matrix k135s (flow_at (further k135s 2) stay 1 1 f135)) (gauss 9) /\
  air_shown k135s (by_gauss k135s f135 d135 ones) = Some [10; 8945 # 1323; 0; 10; 7997 # 1323; 0; 10; 9182 # 1323; 0] /\
  air_shown k135s (by_gauss k135s (flow_at (further k135s 2) stay 1 1 f135) (input_at (moved k135s (further k135s 2) stay) d135) (weights_at (moved k135s (further k135s 2) stay) ones)) =
    Some [10; 9182 # 1323; 0; 10; 8945 # 1323; 0; 10; 7997 # 1323; 0].
Proof.
  split; [apply posed135|]. split.
  { pose proof posed135 as H. posed_parts H. apply (along_solver k135s); try assumption. split; [left; reflexivity | split; [right; left; reflexivity | reflexivity]].
    intros r Hr. unfold further. pose proof (Nat.mod_upper_bound (r + 2) (S (ny k135s)) ltac:(lia)). lia. }
  split. vm_compute. reflexivity. vm_compute. reflexivity.
Qed.
Lemma c135_mirror_case : well_posed (gauss 9) k135s f135 d135 ones /\ exact_solver (number_of_cells k135s) (matrix k135s (flow_at (other_side k135s) stay 1 (- (1)) f135)) (gauss 9) /\
  air_shown k135s (by_gauss k135s (flow_at (other_side k135s) stay 1 (- (1)) f135) (input_at (moved k135s (other_side k135s) stay) d135) (weights_at (moved k135s (other_side k135s) stay) ones)) =
    Some [10; 9182 # 1323; 0; 10; 7997 # 1323; 0; 10; 8945 # 1323; 0].
Proof.
  split; [apply posed135|]. split.
  { pose proof posed135 as H. posed_parts H. apply (along_solver k135s); try assumption. split; [left; reflexivity | split; [right; left; reflexivity | reflexivity]]. intros r Hr. unfold other_side. lia. }
  vm_compute. reflexivity.
Qed.
(** A gust in the first row only: the last row does not feel it, the first row does not lose it. *)
Definition gust : flow := case_f (even 1) (fun r _ => if Nat.eqb r 0 then 1 else 0).
Definition k135 : cfg := case_k true 2 2 1 9 Constant Constant 1.
Lemma c135_gust : exists sp k f d w m o o', ordinary k f d w /\ onshore_wind k f /\ gathering k f /\ fully_implicit k /\
  solve_fraction sp k f d w = Ok (Some o) /\ is_solution (number_of_cells k) (matrix k f) (rhs k f d w) (ct o) /\
  (let f' := flow_at (further k m) stay 1 1 f in let place := moved k (further k m) stay in
   solve_fraction sp k f' (input_at place d) (weights_at place w) = Ok (Some o') /\ is_solution (number_of_cells k) (matrix k f') (rhs k f' (input_at place d) (weights_at place w)) (ct o') /\
   converged o = true /\ converged o' = true /\ different_at (number_of_cells k) place o o').
Proof.
  assert (H1 : sensible k135) by (apply case_sensible; [discriminate | lia | lra]).
  assert (Hw : onshore_wind k135 gust) by (intros r c _ _; vm_compute; discriminate).
  eexists (gauss 9), k135, gust, (case_d ones ones tens ones), ones, 1%nat, _, _.
  split. { split; [reflexivity|]. split; [exact H1|]. split; [apply case_rect|]. split; [split; [right; left; reflexivity | split; [right; left; reflexivity | reflexivity]]|].
    split; [apply case_input; intros; unfold ones, tens; repeat split; lra|]. split; [apply case_ends; lra|]. split; [reflexivity|]. intros i _. unfold ones. lra. }
  split; [exact Hw|]. split; [apply onshore_gathers; assumption|]. split; [intros _; reflexivity|].
  split; [vm_compute; reflexivity|]. split; [apply solvesb_ok; vm_compute; reflexivity|]. cbv zeta.
  split; [vm_compute; reflexivity|]. split; [apply solvesb_ok; vm_compute; reflexivity|]. split; [reflexivity|]. split; [reflexivity|].
  exists 1%nat. split; [cbn; lia|]. vm_compute. discriminate.
Qed.

(** ** Across the coast *)
Definition k136 : cfg := {| trunk := true; ny := 0; nx := 4; dt := 1; T := 2; alpha := 1; max_error := 1 # 2; max_iter := 20; offshore := Flux; onshore := Constant; lateral := Circular;
     offshore_flux := 1 # 2; onshore_flux := 0; constant_offshore_flux := 0; constant_onshore_flux := 3 |}.
Definition f136 : flow := case_f (column [1; 2; 1; - (1); - (2)]) (even 0).
Definition d136 : input := case_d tens tens spot ones.
Lemma posed136 : well_posed (gauss 5) k136 f136 d136 ones.
Proof.
  assert (H1 : sensible k136) by (repeat split; cbn; try lia; lra).
  apply (posed k136); try assumption; try (cbn; lra).
  - intros r c _ _. reflexivity.
  - split.
    + intros r c Hr Hc. cbn in Hc. destruct c as [|[|[|c]]]; try lia; vm_compute; intros; try discriminate; congruence.
    + intros r c (Hr & Hc1 & Hc2). cbn in Hc1, Hc2. destruct c as [|[|[|[|c]]]]; try lia; vm_compute; intros; try discriminate; congruence.
  - split; [left; reflexivity | split; [right; left; reflexivity | reflexivity]].
  - apply case_input. intros i. unfold tens, spot, ones. destruct (Nat.eqb i 2); repeat split; lra.
  - intros i _. unfold ones. lra.
Qed.
Lemma c136_case : well_posed (gauss 5) k136 f136 d136 ones /\ two_sided k136 /\ never_calm k136 f136 /\
  exact_solver (number_of_cells k136) (matrix (ends_exchanged k136) (flow_at stay (other_end k136) (- (1)) 1 f136)) (gauss 5) /\
  air_shown k136 (by_gauss k136 f136 d136 ones) = Some [5; 120 # 49; 18544 # 6125; 104 # 25; 3] /\
  air_shown k136 (by_gauss (ends_exchanged k136) (flow_at stay (other_end k136) (- (1)) 1 f136) (input_at (moved k136 stay (other_end k136)) d136) (weights_at (moved k136 stay (other_end k136)) ones)) =
    Some [3; 104 # 25; 18544 # 6125; 120 # 49; 5].
Proof.
  assert (H2 : two_sided k136) by (split; [left; reflexivity | split; [right; reflexivity | reflexivity]]).
  assert (H3 : never_calm k136 f136) by (intros r c (_ & Hc1 & Hc2); cbn in Hc1, Hc2; destruct c as [|[|[|[|c]]]]; try lia; vm_compute; discriminate).
  split; [apply posed136|]. split; [exact H2|]. split; [exact H3|]. split.
  { pose proof posed136 as H. posed_parts H. apply (gauss_exact (ends_exchanged k136) _ P1 (across_rect k136 f136 P2) (across_lat k136 f136 P3) (across_gathering k136 f136 P4 H3)).
    split; [right; left; reflexivity | split; [left; reflexivity | reflexivity]]. }
  split. vm_compute. reflexivity. vm_compute. reflexivity.
Qed.
(** Sand blown into a calm cell: onshore it arrives, offshore it is gone. *)
Definition k136c : cfg := case_k true 0 3 1 9 Constant Constant 1.
Definition lull : flow := case_f (column [1; 1; 0; 0]) (even 0).
Definition d136c : input := case_d ones ones tens ones.
Lemma c136_lull : exists sp k f d w o o', let f' := flow_at stay (other_end k) (- (1)) 1 f in let place := moved k stay (other_end k) in
  well_posed sp k f d w /\ well_posed sp (ends_exchanged k) f' (input_at place d) (weights_at place w) /\ two_sided k /\
  solve_fraction sp k f d w = Ok (Some o) /\ solve_fraction sp (ends_exchanged k) f' (input_at place d) (weights_at place w) = Ok (Some o') /\
  converged o = true /\ converged o' = true /\ different_at (number_of_cells k) place o o'.
Proof.
  assert (H1 : sensible k136c) by (apply case_sensible; [discriminate | lia | lra]).
  assert (Hw : onshore_wind k136c lull) by (intros r [|[|[|[|c]]]] _ H; try (vm_compute; discriminate); cbn in H; lia).
  assert (Wp : well_posed (gauss 4) k136c lull d136c ones).
  { apply (posed k136c); try assumption; try (cbn; lra).
    intros r c _ _; reflexivity. apply onshore_gathers; assumption. split; [right; left; reflexivity | split; [right; left; reflexivity | reflexivity]].
    apply case_input; intros; unfold ones, tens; repeat split; lra. intros i _. unfold ones. lra. }
  eexists (gauss 4), k136c, lull, d136c, ones, _, _. cbv zeta. split; [exact Wp|]. split.
  { pose proof Wp as H. posed_parts H. pose proof (across_rect k136c lull P2) as R. pose proof (across_lat k136c lull P3) as L.
    assert (E : prescribed_ends (ends_exchanged k136c)) by (split; [right; left; reflexivity | split; [right; left; reflexivity | reflexivity]]).
    assert (G : gathering (ends_exchanged k136c) (flow_at stay (other_end k136c) (- (1)) 1 lull)).
    { split.
      + intros r c Hr Hc. cbn in Hc. destruct c as [|[|c]]; try lia; vm_compute; intros; try discriminate; congruence.
      + intros r c (Hr & Hc1 & Hc2). cbn in Hc1, Hc2. destruct c as [|[|[|c]]]; try lia; vm_compute; intros; try discriminate; congruence. }
    split; [exact P1|]. split; [exact R|]. split; [exact L|]. split; [exact G|]. split; [left; exact E|]. split; [intros _; reflexivity|].
    split; [intros i _; cbn; unfold capacity; cbn; unfold ones, tens; repeat split; lra|]. split; [repeat split; cbn; lra|]. split; [reflexivity|].
    split; [apply (gauss_exact (ends_exchanged k136c) _ P1 R L G E)|]. intros i _. unfold weights_at, ones. lra. }
  split; [split; [right; reflexivity | split; [right; reflexivity | reflexivity]]|].
  split; [vm_compute; reflexivity|]. split; [vm_compute; reflexivity|]. split; [reflexivity|]. split; [reflexivity|].
  exists 1%nat. split; [cbn; lia|]. vm_compute. discriminate.
Qed.

(** ** One row and many *)
Definition k137 : cfg := coarse (1 # 2) (case_k true 0 2 1 40 Constant Constant 1).
Definition f137 : flow := case_f (column [1; 2; 1]) (even 0).
Definition d137 : input := case_d tens tens (fun i => if Nat.eqb i 1 then 0 else 1) ones.
Definition side137 : nat -> nat -> Q := fun _ c => column [0; - (2); 0] 0%nat c.
Lemma posed137 v : well_posed (gauss 3) k137 (case_f (column [1; 2; 1]) (even v)) d137 ones.
Proof.
  assert (H1 : sensible k137) by (repeat split; cbn; try lia; lra).
  apply (posed k137); try assumption; try (cbn; lra).
  - intros r c _ _; reflexivity.
  - apply onshore_gathers. exact H1. intros r [|[|[|c]]] _ H; try (vm_compute; discriminate); cbn in H; lia.
  - split; [right; left; reflexivity | split; [right; left; reflexivity | reflexivity]].
  - apply case_input; intros i; unfold ones, tens; destruct (Nat.eqb i 1); repeat split; lra.
  - intros i _. unfold ones. lra.
Qed.
Lemma c137_case : well_posed (gauss 3) k137 f137 d137 ones /\ ny k137 = 0%nat /\ no_side_wind_in_1d k137 f137 /\ (forall r c, (r <= 2)%nat -> (c <= nx k137)%nat -> side137 r c == side137 0%nat c) /\
  exact_solver (number_of_cells (with_rows k137 2)) (matrix (with_rows k137 2) (with_side_wind (flow_at first stay 1 1 f137) side137)) (gauss 9) /\
  air_shown k137 (by_gauss k137 f137 d137 ones) = Some [1; 13 # 16; 0] /\
  air_shown (with_rows k137 2) (by_gauss (with_rows k137 2) (with_side_wind (flow_at first stay 1 1 f137) side137) (input_at (moved k137 first stay) d137) (weights_at (moved k137 first stay) ones)) =
    Some [1; 13 # 16; 0; 1; 13 # 16; 0; 1; 13 # 16; 0].
Proof.
  split; [apply posed137|]. split; [reflexivity|]. split; [intros _ c _; reflexivity|]. split; [intros; reflexivity|]. split.
  { pose proof (posed137 0) as H. posed_parts H. assert (S2 : sensible (with_rows k137 2)) by (apply rows_sensible; [reflexivity | lia | exact P1]).
    apply (gauss_exact (with_rows k137 2) _ S2 (rows_rect k137 f137 2 side137 eq_refl (le_n 2) P2)). intros r c _ _. reflexivity. apply (rows_gathering k137 f137 2 side137 eq_refl (le_n 2) P4).
    split; [right; left; reflexivity | split; [right; left; reflexivity | reflexivity]]. }
  split. vm_compute. reflexivity. vm_compute. reflexivity.
Qed.
Lemma c137_oblique : exists sp sp' k f d w n o o', let f' := with_side_wind (flow_at first stay 1 1 f) (un f) in let place := moved k first stay in
  well_posed sp k f d w /\ ny k = 0%nat /\ (2 <= n)%nat /\ (forall r c, (r <= n)%nat -> (c <= nx k)%nat -> un f r c == un f 0%nat c) /\
  exact_solver (number_of_cells (with_rows k n)) (matrix (with_rows k n) f') sp' /\
  solve_fraction sp k f d w = Ok (Some o) /\ solve_fraction sp' (with_rows k n) f' (input_at place d) (weights_at place w) = Ok (Some o') /\
  converged o = true /\ converged o' = true /\ different_at (number_of_cells (with_rows k n)) place o o'.
Proof.
  pose proof (posed137 1) as Wp. eexists (gauss 3), (gauss 9), k137, (case_f (column [1; 2; 1]) (even 1)), d137, ones, 2%nat, _, _. cbv zeta.
  split; [exact Wp|]. split; [reflexivity|]. split; [lia|]. split; [intros; reflexivity|]. split.
  { posed_parts Wp. assert (S2 : sensible (with_rows k137 2)) by (apply rows_sensible; [reflexivity | lia | exact P1]). set (f := case_f (column [1; 2; 1]) (even 1)) in *.
    apply (gauss_exact (with_rows k137 2) _ S2 (rows_rect k137 f 2 (un f) eq_refl (le_n 2) P2)). intros r c _ _. reflexivity. apply (rows_gathering k137 f 2 (un f) eq_refl (le_n 2) P4).
    split; [right; left; reflexivity | split; [right; left; reflexivity | reflexivity]]. }
  split; [vm_compute; reflexivity|]. split; [vm_compute; reflexivity|]. split; [reflexivity|]. split; [reflexivity|].
  exists 1%nat. split; [cbn; lia|]. vm_compute. discriminate.
Qed.

(** ** Several classes *)
Definition plentyb (k : cfg) (g : (flow * input) * (nat -> Q)) : bool :=
  let x := solve_once k (fst (fst g)) (snd (fst g)) (snd g) in
  forallb (fun i => Qle_bool ((snd g i * Cu (snd (fst g)) i - x i) / T k * dt k) (mass (snd (fst g)) i)) (seq 0 (number_of_cells k)).
Lemma plentyb_ok k g : well_posed (gauss (number_of_cells k)) k (fst (fst g)) (snd (fst g)) (snd g) -> plentyb k g = true -> plenty k g.
Proof.
  intros Wp H x Hx i Hi. unfold plentyb in H. rewrite forallb_forall in H. specialize (H i ltac:(apply in_seq; lia)). apply Qle_bool_imp_le in H.
  assert (E : x i == solve_once k (fst (fst g)) (snd (fst g)) (snd g) i).
  { apply (unique_solution (gauss (number_of_cells k)) k g Wp _ _ _ Hx); [|exact Hi]. apply (exact_here (gauss (number_of_cells k)) k g Wp). }
  rewrite E. exact H.
Qed.
Definition k133 : cfg := coarse (1 # 10) (case_k true 0 3 1 30 Constant Constant 0).
Definition class133 (cu m l : nat -> Q) (a : Q) : (flow * input) * (nat -> Q) := ((case_f (even 1) (even 0), case_d cu cu m l), fun _ => a).
Lemma posed133 b1 c1 cu m l a : b1 = Flux \/ b1 = Constant -> 0 <= c1 -> (forall i, 0 <= cu i /\ 0 <= m i /\ 0 <= l i) -> 0 <= a -> let g := class133 cu m l a in well_posed (gauss 4) (coarse (1 # 10) (case_k true 0 3 1 30 b1 Constant c1)) (fst (fst g)) (snd (fst g)) (snd g).
Proof.
  intros Hb Hc H Ha. cbn [class133 fst snd]. set (k := coarse (1 # 10) (case_k true 0 3 1 30 b1 Constant c1)). assert (H1 : sensible k) by (repeat split; cbn; try lia; lra).
  destruct (uniform_gathering _ _ _ _ (case_even k 1 0)) as (H3 & H4). specialize (H4 H1).
  apply (posed k); try assumption; try (cbn; lra).
  - split; [tauto | split; [right; left; reflexivity | reflexivity]].
  - apply case_input. intros i. destruct (H i) as (A & B & C). repeat split; assumption.
  - intros i _. exact Ha.
Qed.
Definition A133 := class133 tens tens ones (1 # 3).
Definition B133 := class133 ones tens zeros (2 # 3).
Lemma supplied133 : all_supplied (gauss 4) k133 [A133; B133].
Proof.
  assert (P1 : well_posed (gauss 4) k133 (fst (fst A133)) (snd (fst A133)) (snd A133)) by (apply (posed133 Constant 0 tens tens ones (1 # 3)); [right; reflexivity | lra | intros i; unfold tens, ones; repeat split; lra | lra]).
  assert (P2 : well_posed (gauss 4) k133 (fst (fst B133)) (snd (fst B133)) (snd B133)) by (apply (posed133 Constant 0 ones tens zeros (2 # 3)); [right; reflexivity | lra | intros i; unfold tens, ones, zeros; repeat split; lra | lra]).
  split; [discriminate|]. split; [intros i _; reflexivity|]. intros g [<- | [<- | []]].
  split; [exact P1 | apply (plentyb_ok k133 A133 P1); vm_compute; reflexivity]. split; [exact P2 | apply (plentyb_ok k133 B133 P2); vm_compute; reflexivity].
Qed.
Definition all_shown (k : cfg) (x : result (option (list outcome * (nat -> list Q)))) : option (list (list Q * bool)) :=
  match x with Ok (Some (os, _)) => Some (map (fun o => (show k (ct o), converged o)) os) | _ => None end.
Lemma c133_case : all_supplied (gauss 4) k133 [A133; B133] /\ Permutation [A133; B133] [B133; A133] /\
  all_shown k133 (step_of (gauss 4) k133 [A133; B133]) = Some [([0; 13 # 9; 52 # 27; 0], true); ([0; 2 # 9; 8 # 27; 0], true)] /\ all_shown k133 (step_of (gauss 4) k133 [B133; A133]) = Some [([0; 2 # 9; 8 # 27; 0], true); ([0; 13 # 9; 52 # 27; 0], true)].
Proof. split; [apply supplied133|]. split; [constructor|]. split. vm_compute. reflexivity. vm_compute. reflexivity. Qed.
(** There is none of the first class left in the bed. *)
Definition gone : (flow * input) * (nat -> Q) := class133 ones zeros zeros (1 # 2).
Definition left : (flow * input) * (nat -> Q) := class133 ones tens zeros (1 # 2).
Lemma c133_limited : exists sp k g h o1 o2 w o1' o2' w' i, max_iter k <> 0%nat /\ shared_out k [g; h] /\ (forall c, In c [g; h] -> well_posed sp k (fst (fst c)) (snd (fst c)) (snd c)) /\
  step_of sp k [g; h] = Ok (Some ([o1; o2], w)) /\ step_of sp k [h; g] = Ok (Some ([o2'; o1'], w')) /\
  forallb converged [o1; o2; o1'; o2'] = true /\ (i < number_of_cells k)%nat /\ (3 # 2) * all_pickup [o2'; o1'] i < all_pickup [o1; o2] i.
Proof.
  eexists (gauss 4), k133, gone, left, _, _, _, _, _, _, 1%nat. split; [discriminate|]. split; [intros i _; reflexivity|]. split.
  { intros c [<- | [<- | []]]. apply (posed133 Constant 0 ones zeros zeros (1 # 2)); [right; reflexivity | lra | intros i; unfold tens, ones, zeros; repeat split; lra | lra].
    apply (posed133 Constant 0 ones tens zeros (1 # 2)); [right; reflexivity | lra | intros i; unfold tens, ones, zeros; repeat split; lra | lra]. }
  split; [vm_compute; reflexivity|]. split; [vm_compute; reflexivity|]. split; [reflexivity|]. split; [cbn; lia|]. vm_compute. reflexivity.
Qed.

(** ** Splitting a class *)
Definition whole134 := class133 ones tens zeros 1.
Lemma c134_case : all_supplied (gauss 4) k133 ([A133] ++ B133 :: []) /\ nothing_enters k133 B133 /\
  all_shown k133 (step_of (gauss 4) k133 [whole134]) = Some [([0; 1 # 3; 4 # 9; 0], true)] /\
  all_shown k133 (step_of (gauss 4) k133 [part (1 # 4) whole134; part (3 # 4) whole134]) = Some [([0; 1 # 12; 1 # 9; 0], true); ([0; 1 # 4; 1 # 3; 0], true)].
Proof. split; [apply supplied133|]. split; [intros r _; split; reflexivity|]. split. vm_compute. reflexivity. vm_compute. reflexivity. Qed.
Lemma c134_weights_case : same (compute_weights (1 # 2) [1; 2] [4; 4] [1; 3]) [9 # 32; 23 # 32] /\ same (compute_weights (1 # 2) (split_at 1 (1 # 2) [1; 2]) (twice_at 1 [4; 4]) (split_at 1 (1 # 2) [1; 3])) [9 # 32; 23 # 64; 23 # 64].
Proof. split; repeat constructor; vm_compute; reflexivity. Qed.
(** Sand blown in from the sea: as much of either part as of the whole. *)
Definition k134 : cfg := coarse (1 # 10) (case_k true 0 3 1 30 Flux Constant 0).
Definition g134 : (flow * input) * (nat -> Q) := class133 ones tens ones 1.
Lemma c134_influx : exists sp k g a o oa ob w w', all_supplied sp k [g] /\ all_supplied sp k [part a g; part (1 - a) g] /\ 0 < a /\ a < 1 /\
  step_of sp k [g] = Ok (Some ([o], w)) /\ step_of sp k [part a g; part (1 - a) g] = Ok (Some ([oa; ob], w')) /\ forallb converged [o; oa; ob] = true /\
  0 < all_air [o] 0 /\ all_air [oa; ob] 0 == 2 * all_air [o] 0 /\ exists r c, inside k r c /\ at_cell k (all_air [o]) r c < at_cell k (all_air [oa; ob]) r c.
Proof.
  assert (P : well_posed (gauss 4) k134 (fst (fst g134)) (snd (fst g134)) (snd g134)) by (apply (posed133 Flux 0 ones tens ones 1); [left; reflexivity | lra | intros i; unfold tens, ones; repeat split; lra | lra]).
  assert (Q1 : forall a, 0 < a -> well_posed (gauss 4) k134 (fst (fst (part a g134))) (snd (fst (part a g134))) (snd (part a g134))) by (intros a Ha; apply part_posed; assumption).
  eexists (gauss 4), k134, g134, (1 # 4), _, _, _, _, _. split.
  { split; [discriminate|]. split; [intros i _; reflexivity|]. intros g [<- | []]. split; [exact P | apply (plentyb_ok k134 _ P); vm_compute; reflexivity]. }
  split. { split; [discriminate|]. split; [intros i _; reflexivity|]. intros g [<- | [<- | []]].
    split; [apply Q1; lra | apply (plentyb_ok k134 _ (Q1 (1 # 4) ltac:(lra))); vm_compute; reflexivity].
    split; [apply Q1; lra | apply (plentyb_ok k134 _ (Q1 (1 - (1 # 4)) ltac:(lra))); vm_compute; reflexivity]. }
  split; [lra|]. split; [lra|]. split; [vm_compute; reflexivity|]. split; [vm_compute; reflexivity|]. split; [reflexivity|]. split; [vm_compute; reflexivity|]. split; [vm_compute; reflexivity|].
  exists 0%nat, 1%nat. split; [repeat split; cbn; lia|]. vm_compute. reflexivity.
Qed.
