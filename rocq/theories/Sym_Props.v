(** Symmetries of the transport: properties C133-C137. *)
From Verif Require Import Base Num Utils_Model Utils_Spec Solver_Model Solver_Spec Linear Solver_Cases Sym_Spec Sym_Proofs Sym_Fractions Sym_Cases.
From Coq Require Import QArith List Permutation.
Import ListNotations.
Open Scope Q_scope.

(** C133. As long as the bed supplies every class, each class gets the result that it has alone. *)
Theorem C133_alone : forall sp k gs, all_supplied sp k gs -> exists os w', step_of sp k gs = Ok (Some (os, w')) /\
  Forall2 (fun g o => exists o1, solve_fraction sp k (fst (fst g)) (snd (fst g)) (snd g) = Ok (Some o1) /\ same_outcome (number_of_cells k) o1 o) gs os /\
  forall i, (i < number_of_cells k)%nat -> same (w' i) (shares gs i).
Proof. exact each_alone. Qed.
Print Assumptions C133_alone.
Example C133_alone_case : all_supplied (gauss 4) k133 [A133; B133] /\ Permutation [A133; B133] [B133; A133] /\
  all_shown k133 (step_of (gauss 4) k133 [A133; B133]) = Some [([0; 13 # 9; 52 # 27; 0], true); ([0; 2 # 9; 8 # 27; 0], true)] /\ all_shown k133 (step_of (gauss 4) k133 [B133; A133]) = Some [([0; 2 # 9; 8 # 27; 0], true); ([0; 13 # 9; 52 # 27; 0], true)].
Proof. exact c133_case. Qed.

(** Their order does not matter then. *)
Theorem C133_order : forall sp k gs gs', all_supplied sp k gs -> Permutation gs gs' -> exists os w os' w', step_of sp k gs = Ok (Some (os, w)) /\ step_of sp k gs' = Ok (Some (os', w')) /\
  length os = length gs /\ length os' = length gs' /\
  forall g o o', In (g, o) (combine gs os) -> In (g, o') (combine gs' os') -> same_outcome (number_of_cells k) o o'.
Proof. exact any_order. Qed.
Print Assumptions C133_order.
Example C133_order_case : all_supplied (gauss 4) k133 [A133; B133] /\ Permutation [A133; B133] [B133; A133] /\
  all_shown k133 (step_of (gauss 4) k133 [A133; B133]) = Some [([0; 13 # 9; 52 # 27; 0], true); ([0; 2 # 9; 8 # 27; 0], true)] /\ all_shown k133 (step_of (gauss 4) k133 [B133; A133]) = Some [([0; 2 # 9; 8 # 27; 0], true); ([0; 13 # 9; 52 # 27; 0], true)].
Proof. exact c133_case. Qed.

(** It does if the bed cannot supply one of them. *)
Theorem C133_limited_refuted : exists sp k g h o1 o2 w o1' o2' w' i, max_iter k <> 0%nat /\ shared_out k [g; h] /\ (forall c, In c [g; h] -> well_posed sp k (fst (fst c)) (snd (fst c)) (snd c)) /\
  step_of sp k [g; h] = Ok (Some ([o1; o2], w)) /\ step_of sp k [h; g] = Ok (Some ([o2'; o1'], w')) /\
  forallb converged [o1; o2; o1'; o2'] = true /\ (i < number_of_cells k)%nat /\ (3 # 2) * all_pickup [o2'; o1'] i < all_pickup [o1; o2] i.
Proof. exact c133_limited. Qed.
Print Assumptions C133_limited_refuted.

(** C134. As long as the bed supplies every class and none of the sand comes from outside, two classes of the same grains get together what one class gets. *)
Theorem C134_split : forall sp k gs1 g gs2 a, all_supplied sp k (gs1 ++ g :: gs2) -> nothing_enters k g -> 0 < a -> a < 1 ->
  exists os1 o os2 w os1' oa ob os2' w',
    step_of sp k (gs1 ++ g :: gs2) = Ok (Some (os1 ++ o :: os2, w)) /\ step_of sp k (gs1 ++ part a g :: part (1 - a) g :: gs2) = Ok (Some (os1' ++ oa :: ob :: os2', w')) /\
    length os1 = length gs1 /\ length os1' = length gs1 /\
    Forall2 (same_outcome (number_of_cells k)) os1 os1' /\ Forall2 (same_outcome (number_of_cells k)) os2 os2' /\ together (number_of_cells k) oa ob o.
Proof. exact split_class. Qed.
Print Assumptions C134_split.
Example C134_split_case : all_supplied (gauss 4) k133 ([A133] ++ B133 :: []) /\ nothing_enters k133 B133 /\
  all_shown k133 (step_of (gauss 4) k133 [whole134]) = Some [([0; 1 # 3; 4 # 9; 0], true)] /\
  all_shown k133 (step_of (gauss 4) k133 [part (1 # 4) whole134; part (3 # 4) whole134]) = Some [([0; 1 # 12; 1 # 9; 0], true); ([0; 1 # 4; 1 # 3; 0], true)].
Proof. exact c134_case. Qed.

(** Nor do the weights change. *)
Theorem C134_weights : forall bi n a cs us ms, (n < length cs)%nat -> length us = length cs -> length ms = length cs ->
  same (compute_weights bi (split_at n a cs) (twice_at n us) (split_at n a ms)) (split_at n a (compute_weights bi cs us ms)).
Proof. exact weights_split. Qed.
Print Assumptions C134_weights.
Example C134_weights_case : same (compute_weights (1 # 2) [1; 2] [4; 4] [1; 3]) [9 # 32; 23 # 32] /\ same (compute_weights (1 # 2) (split_at 1 (1 # 2) [1; 2]) (twice_at 1 [4; 4]) (split_at 1 (1 # 2) [1; 3])) [9 # 32; 23 # 64; 23 # 64].
Proof. exact c134_weights_case. Qed.

(** With sand from outside twice as much enters. *)
Theorem C134_influx_refuted : exists sp k g a o oa ob w w', all_supplied sp k [g] /\ all_supplied sp k [part a g; part (1 - a) g] /\ 0 < a /\ a < 1 /\
  step_of sp k [g] = Ok (Some ([o], w)) /\ step_of sp k [part a g; part (1 - a) g] = Ok (Some ([oa; ob], w')) /\ forallb converged [o; oa; ob] = true /\
  0 < all_air [o] 0 /\ all_air [oa; ob] 0 == 2 * all_air [o] 0 /\ exists r c, inside k r c /\ at_cell k (all_air [o]) r c < at_cell k (all_air [oa; ob]) r c.
Proof. exact c134_influx. Qed.
Print Assumptions C134_influx_refuted.

(** C135. A coast that is shifted along itself. *)
Theorem C135_shift : forall sp sp' k f d w o m, well_posed sp k f d w -> exact_solver (number_of_cells k) (matrix k (flow_at (further k m) stay 1 1 f)) sp' -> solve_fraction sp k f d w = Ok (Some o) ->
  exists o', solve_fraction sp' k (flow_at (further k m) stay 1 1 f) (input_at (moved k (further k m) stay) d) (weights_at (moved k (further k m) stay) w) = Ok (Some o') /\
    same_at (number_of_cells k) (moved k (further k m) stay) o o'.
Proof. exact shift_invariant. Qed.
Print Assumptions C135_shift.
Example C135_shift_case : well_posed (gauss 9) k135s f135 d135 ones /\ exact_solver (number_of_cells k135s) (matrix k135s (flow_at (further k135s 2) stay 1 1 f135)) (gauss 9) /\
  air_shown k135s (by_gauss k135s f135 d135 ones) = Some [10; 8945 # 1323; 0; 10; 7997 # 1323; 0; 10; 9182 # 1323; 0] /\
  air_shown k135s (by_gauss k135s (flow_at (further k135s 2) stay 1 1 f135) (input_at (moved k135s (further k135s 2) stay) d135) (weights_at (moved k135s (further k135s 2) stay) ones)) =
    Some [10; 9182 # 1323; 0; 10; 8945 # 1323; 0; 10; 7997 # 1323; 0].
Proof. exact c135_shift_case. Qed.

(** A coast that is mirrored along itself. *)
Theorem C135_mirror : forall sp sp' k f d w o, well_posed sp k f d w -> exact_solver (number_of_cells k) (matrix k (flow_at (other_side k) stay 1 (- (1)) f)) sp' -> solve_fraction sp k f d w = Ok (Some o) ->
  exists o', solve_fraction sp' k (flow_at (other_side k) stay 1 (- (1)) f) (input_at (moved k (other_side k) stay) d) (weights_at (moved k (other_side k) stay) w) = Ok (Some o') /\
    same_at (number_of_cells k) (moved k (other_side k) stay) o o'.
Proof. exact mirror_invariant. Qed.
Print Assumptions C135_mirror.
Example C135_mirror_case : well_posed (gauss 9) k135s f135 d135 ones /\ exact_solver (number_of_cells k135s) (matrix k135s (flow_at (other_side k135s) stay 1 (- (1)) f135)) (gauss 9) /\
  air_shown k135s (by_gauss k135s (flow_at (other_side k135s) stay 1 (- (1)) f135) (input_at (moved k135s (other_side k135s) stay) d135) (weights_at (moved k135s (other_side k135s) stay) ones)) =
    Some [10; 9182 # 1323; 0; 10; 7997 # 1323; 0; 10; 8945 # 1323; 0].
Proof. exact c135_mirror_case. Qed.

(** Not if the wind along the coast differs between the rows. *)
Theorem C135_gust_refuted : exists sp k f d w m o o', ordinary k f d w /\ onshore_wind k f /\ gathering k f /\ fully_implicit k /\
  solve_fraction sp k f d w = Ok (Some o) /\ is_solution (number_of_cells k) (matrix k f) (rhs k f d w) (ct o) /\
  (let f' := flow_at (further k m) stay 1 1 f in let place := moved k (further k m) stay in
   solve_fraction sp k f' (input_at place d) (weights_at place w) = Ok (Some o') /\ is_solution (number_of_cells k) (matrix k f') (rhs k f' (input_at place d) (weights_at place w)) (ct o') /\
   converged o = true /\ converged o' = true /\ different_at (number_of_cells k) place o o').
Proof. exact c135_gust. Qed.
Print Assumptions C135_gust_refuted.

(** C136. A coast that is mirrored across itself, land and sea exchanged. *)
Theorem C136_turned : forall sp sp' k f d w o, well_posed sp k f d w -> two_sided k -> never_calm k f -> exact_solver (number_of_cells k) (matrix (ends_exchanged k) (flow_at stay (other_end k) (- (1)) 1 f)) sp' ->
  solve_fraction sp k f d w = Ok (Some o) ->
  exists o', solve_fraction sp' (ends_exchanged k) (flow_at stay (other_end k) (- (1)) 1 f) (input_at (moved k stay (other_end k)) d) (weights_at (moved k stay (other_end k)) w) = Ok (Some o') /\
    same_at (number_of_cells k) (moved k stay (other_end k)) o o'.
Proof. exact turned_invariant. Qed.
Print Assumptions C136_turned.
Example C136_turned_case : well_posed (gauss 5) k136 f136 d136 ones /\ two_sided k136 /\ never_calm k136 f136 /\
  exact_solver (number_of_cells k136) (matrix (ends_exchanged k136) (flow_at stay (other_end k136) (- (1)) 1 f136)) (gauss 5) /\
  air_shown k136 (by_gauss k136 f136 d136 ones) = Some [5; 120 # 49; 18544 # 6125; 104 # 25; 3] /\
  air_shown k136 (by_gauss (ends_exchanged k136) (flow_at stay (other_end k136) (- (1)) 1 f136) (input_at (moved k136 stay (other_end k136)) d136) (weights_at (moved k136 stay (other_end k136)) ones)) =
    Some [3; 104 # 25; 18544 # 6125; 120 # 49; 5].
Proof. exact c136_case. Qed.

(** Not if the wind is calm somewhere. *)
Theorem C136_lull_refuted : exists sp k f d w o o', let f' := flow_at stay (other_end k) (- (1)) 1 f in let place := moved k stay (other_end k) in
  well_posed sp k f d w /\ well_posed sp (ends_exchanged k) f' (input_at place d) (weights_at place w) /\ two_sided k /\
  solve_fraction sp k f d w = Ok (Some o) /\ solve_fraction sp (ends_exchanged k) f' (input_at place d) (weights_at place w) = Ok (Some o') /\
  converged o = true /\ converged o' = true /\ different_at (number_of_cells k) place o o'.
Proof. exact c136_lull. Qed.
Print Assumptions C136_lull_refuted.

(** C137. Equal rows get the result of one row. *)
Theorem C137_rows : forall sp sp' k f d w o n v, well_posed sp k f d w -> ny k = 0%nat -> no_side_wind_in_1d k f -> (2 <= n)%nat -> (forall r c, (r <= n)%nat -> (c <= nx k)%nat -> v r c == v 0%nat c) ->
  exact_solver (number_of_cells (with_rows k n)) (matrix (with_rows k n) (with_side_wind (flow_at first stay 1 1 f) v)) sp' -> solve_fraction sp k f d w = Ok (Some o) ->
  exists o', solve_fraction sp' (with_rows k n) (with_side_wind (flow_at first stay 1 1 f) v) (input_at (moved k first stay) d) (weights_at (moved k first stay) w) = Ok (Some o') /\
    same_at (number_of_cells (with_rows k n)) (moved k first stay) o o'.
Proof. exact rows_invariant. Qed.
Print Assumptions C137_rows.
Example C137_rows_case : well_posed (gauss 3) k137 f137 d137 ones /\ ny k137 = 0%nat /\ no_side_wind_in_1d k137 f137 /\ (forall r c, (r <= 2)%nat -> (c <= nx k137)%nat -> side137 r c == side137 0%nat c) /\
  exact_solver (number_of_cells (with_rows k137 2)) (matrix (with_rows k137 2) (with_side_wind (flow_at first stay 1 1 f137) side137)) (gauss 9) /\
  air_shown k137 (by_gauss k137 f137 d137 ones) = Some [1; 13 # 16; 0] /\
  air_shown (with_rows k137 2) (by_gauss (with_rows k137 2) (with_side_wind (flow_at first stay 1 1 f137) side137) (input_at (moved k137 first stay) d137) (weights_at (moved k137 first stay) ones)) =
    Some [1; 13 # 16; 0; 1; 13 # 16; 0; 1; 13 # 16; 0].
Proof. exact c137_case. Qed.

(** Not if the wind of the single row has a component along the coast. *)
Theorem C137_oblique_refuted : exists sp sp' k f d w n o o', let f' := with_side_wind (flow_at first stay 1 1 f) (un f) in let place := moved k first stay in
  well_posed sp k f d w /\ ny k = 0%nat /\ (2 <= n)%nat /\ (forall r c, (r <= n)%nat -> (c <= nx k)%nat -> un f r c == un f 0%nat c) /\
  exact_solver (number_of_cells (with_rows k n)) (matrix (with_rows k n) f') sp' /\
  solve_fraction sp k f d w = Ok (Some o) /\ solve_fraction sp' (with_rows k n) f' (input_at place d) (weights_at place w) = Ok (Some o') /\
  converged o = true /\ converged o' = true /\ different_at (number_of_cells (with_rows k n)) place o o'.
Proof. exact c137_oblique. Qed.
Print Assumptions C137_oblique_refuted.
