(** Property theorems about normalisation, weights, time series, masks and grain sizes:
    C19, C20, C21, C22, C47, C55. *)
From Coq Require Import Sorting.Sorted.
From Verif Require Import Base Num Utils_Model Utils_Spec Utils_Proofs Utils_Cases.
Open Scope Q_scope.

(** C19. Normalising along the last axis: each row becomes a distribution with the same ratios. *)
Theorem C19_rows : forall fill m i r, nth_error m i = Some r -> all_nonneg r -> 0 < qsum r ->
  exists r', nth_error (normalize_rows fill m) i = Some r' /\ length r' = length r /\ distribution r' /\
    forall a b, (a < length r)%nat -> (b < length r)%nat -> nth a r' 0 * nth b r 0 == nth b r' 0 * nth a r 0.
Proof. exact normalize_rows_distribution. Qed.
Print Assumptions C19_rows.
Example C19_rows_ex : nth_error c19_matrix 0 = Some [1; 3] /\ all_nonneg [1; 3] /\ 0 < qsum [1; 3] /\
  normalize 0 [1; 3] = [1 / (1 + (3 + 0)); 3 / (1 + (3 + 0))].
Proof. exact c19_rows_case. Qed.
Theorem C19_rows_fill : forall fill m i r, nth_error m i = Some r -> qsum r == 0 ->
  exists r', nth_error (normalize_rows fill m) i = Some r' /\ length r' = length r /\ forall x, In x r' -> x = fill.
Proof. exact normalize_rows_fill. Qed.
Print Assumptions C19_rows_fill.
Example C19_rows_fill_ex : nth_error [[1; -1 # 1]; [2; 0]] 0 = Some [1; -1 # 1] /\ qsum [1; -1 # 1] == 0 /\ normalize (7 # 1) [1; -1 # 1] = [7 # 1; 7 # 1].
Proof. exact c19_fill_case. Qed.
(** Along the first axis. *)
Theorem C19_columns : forall fill w m j, (forall r, In r m -> length r = w) -> (j < w)%nat ->
  all_nonneg (column j m) -> 0 < qsum (column j m) ->
  distribution (column j (normalize_columns fill w m)) /\
  forall a b, (a < length m)%nat -> (b < length m)%nat ->
    nth a (column j (normalize_columns fill w m)) 0 * nth b (column j m) 0 == nth b (column j (normalize_columns fill w m)) 0 * nth a (column j m) 0.
Proof. exact normalize_columns_distribution. Qed.
Print Assumptions C19_columns.
Example C19_columns_ex : (forall r, In r c19_matrix -> length r = 2%nat) /\ all_nonneg (column 1 c19_matrix) /\ 0 < qsum (column 1 c19_matrix) /\
  map Qred (column 1 (normalize_columns 0 2 c19_matrix)) = [3 # 4; 1 # 4].
Proof. exact c19_columns_case. Qed.
Theorem C19_columns_fill : forall fill w m j, (forall r, In r m -> length r = w) -> (j < w)%nat -> qsum (column j m) == 0 ->
  forall x, In x (column j (normalize_columns fill w m)) -> x == fill.
Proof. exact normalize_columns_fill. Qed.
Print Assumptions C19_columns_fill.
Example C19_columns_fill_ex : (forall r, In r [[0; 1]; [0; 2]] -> length r = 2%nat) /\ qsum (column 0 [[0; 1]; [0; 2]]) == 0 /\
  column 0 (normalize_columns (1 # 2) 2 [[0; 1]; [0; 2]]) = [1 # 2; 1 # 2].
Proof. exact c19_fill_columns_case. Qed.

(** C20. Without sediment in the air or in the top layer the weights are all zero. *)
Theorem C20_weights_refuted : exists bi ct cu mass, 0 <= bi /\ bi <= 1 /\ all_nonneg ct /\ all_nonneg cu /\ all_nonneg mass /\ length ct = length cu /\
  length ct = length mass /\ ~ distribution (compute_weights bi ct cu mass).
Proof. exact c20_empty_layer. Qed.
Print Assumptions C20_weights_refuted.
(** Full statement: a distribution for all non-negative inputs. Proved with a non-empty top layer, or
    with sediment in the air and bi < 1. *)
Theorem C20_weights_partial : forall bi ct cu mass, length ct = length cu -> length ct = length mass ->
  0 <= bi -> bi <= 1 -> all_nonneg ct -> all_nonneg cu -> all_nonneg mass -> 0 < qsum mass ->
  distribution (compute_weights bi ct cu mass).
Proof. exact weights_distribution. Qed.
Print Assumptions C20_weights_partial.
Example C20_weights_ex : distribution (compute_weights (1 # 2) [1; 0] [2; 3] [4; 12]) /\
  map Qred (compute_weights (1 # 2) [1; 0] [2; 3] [4; 12]) = [7 # 16; 9 # 16].
Proof. exact c20_weights_case. Qed.
Theorem C20_air_partial : forall bi ct cu mass, length ct = length cu -> length ct = length mass -> 0 <= bi -> bi < 1 ->
  all_nonneg ct -> all_nonneg cu -> all_nonneg mass -> 0 < qsum (w_air ct cu) ->
  distribution (compute_weights bi ct cu mass).
Proof. exact c20_air_supply. Qed.
Print Assumptions C20_air_partial.
Example C20_air_ex : 0 < qsum (w_air [1; 0] [2; 3]) /\ map Qred (compute_weights (1 # 2) [1; 0] [2; 3] [0; 0]) = [1; 0].
Proof. exact c20_air_case. Qed.
Theorem C20_renormalize : forall w ix, w <> [] -> all_nonneg w -> qsum (firstn ix w) <= 1 ->
  distribution (renormalize_weights w ix) /\ length (renormalize_weights w ix) = length w.
Proof. exact c20_renormalize. Qed.
Print Assumptions C20_renormalize.
Example C20_renormalize_ex : [1 # 4; 1; 3] <> [] /\ all_nonneg [1 # 4; 1; 3] /\ qsum (firstn 1 [1 # 4; 1; 3]) <= 1 /\
  map Qred (renormalize_weights [1 # 4; 1; 3] 1) = [1 # 4; 3 # 16; 9 # 16].
Proof. exact c20_renormalize_case. Qed.
(** The weights of earlier fractions change when the later fractions have no weight at all. *)
Theorem C20_earlier_refuted : exists w ix, all_nonneg w /\ qsum (firstn ix w) <= 1 /\
  ~ same (firstn ix (renormalize_weights w ix)) (firstn ix w).
Proof. exact c20_earlier_refuted. Qed.
Print Assumptions C20_earlier_refuted.
Theorem C20_earlier_partial : forall w ix, (ix <= length w)%nat -> ~ qsum (skipn ix w) == 0 \/ qsum (firstn ix w) == 1 ->
  same (firstn ix (renormalize_weights w ix)) (firstn ix w).
Proof. exact c20_earlier. Qed.
Print Assumptions C20_earlier_partial.
Example C20_earlier_ex : (1 <= length [1 # 4; 1; 3]%Q)%nat /\ ~ qsum (skipn 1 [1 # 4; 1; 3]) == 0.
Proof. exact c20_earlier_case. Qed.

(** C21. Linear between neighbouring points, exact at the points. *)
Theorem C21_linear : forall first rest, series (first :: rest) ->
  forall x pre a b post, first :: rest = pre ++ a :: b :: post -> fst a <= x -> x <= fst b ->
  on_line a b x (interp_circular x first rest).
Proof. exact circular_inside. Qed.
Print Assumptions C21_linear.
Theorem C21_sample : forall first rest, series (first :: rest) -> forall a, In a (first :: rest) -> interp_circular (fst a) first rest == snd a.
Proof. exact c21_sample. Qed.
Print Assumptions C21_sample.
(** Within the range of the values. *)
Theorem C21_range : forall first rest, series (first :: rest) -> forall x lo hi, within lo hi (map snd (first :: rest)) ->
  lo <= interp_circular x first rest /\ interp_circular x first rest <= hi.
Proof. exact circular_range. Qed.
Print Assumptions C21_range.
(** Periodic, with one time unit added to the length of the series; the last value is held in between. *)
Theorem C21_periodic : forall first rest, series (first :: rest) -> forall x k,
  interp_circular (x + inject_Z k * (xmax first rest - xmin first rest + 1)) first rest == interp_circular x first rest.
Proof. exact circular_periodic. Qed.
Print Assumptions C21_periodic.
Theorem C21_hold : forall first rest, series (first :: rest) -> forall x, xmax first rest <= x -> x < xmax first rest + 1 ->
  interp_circular x first rest == snd (last rest first).
Proof. exact circular_hold. Qed.
Print Assumptions C21_hold.
Example C21_ex : series (c21_first :: c21_rest) /\ Qred (interp_circular (1 # 2) c21_first c21_rest) = 25 # 2 /\
  Qred (interp_circular (9 # 2) c21_first c21_rest) = 25 # 2 /\ Qred (interp_circular (7 # 2) c21_first c21_rest) = 14.
Proof. exact c21_case. Qed.

(** C55. The series does not repeat with its own length. *)
Theorem C55_repeat_refuted : exists first rest x, series (first :: rest) /\ xmax first rest < x /\
  ~ interp_circular x first rest == interp_circular (x - (xmax first rest - xmin first rest)) first rest.
Proof. exact c55_refuted. Qed.
Print Assumptions C55_repeat_refuted.

(** C22. A mask cell (a, b) turns every value v into a v + b. *)
Theorem C22_cell : forall arr cs i j c vs v, nth_error cs i = Some c -> nth_error arr i = Some vs -> nth_error vs j = Some v ->
  exists vs' v', nth_error (apply_mask arr (Cells cs)) i = Some vs' /\ nth_error vs' j = Some v' /\ v' == fst c * v + snd c.
Proof. exact mask_cell. Qed.
Print Assumptions C22_cell.
Example C22_ex : nth_error [(2, 1); (3, 0)] 1 = Some (3, 0) /\ nth_error [[5]; [7; 8]] 1 = Some [7; 8] /\ nth_error [7; 8] 1 = Some 8 /\
  apply_mask [[5]; [7; 8]] (Cells [(2, 1); (3, 0)]) = [[5 * 2 + 1]; [7 * 3 + 0; 8 * 3 + 0]].
Proof. exact c22_cell_case. Qed.
Theorem C22_identity : forall arr cs, length cs = length arr -> Forall (fun c => fst c == 1 /\ snd c == 0) cs ->
  same2 (apply_mask arr (Cells cs)) arr.
Proof. exact mask_identity. Qed.
Print Assumptions C22_identity.
Theorem C22_absent : forall arr, same2 (apply_mask arr (mask_of None)) arr.
Proof. exact mask_absent. Qed.
Print Assumptions C22_absent.
Theorem C22_compose : forall arr cs ds, length cs = length arr -> length ds = length arr ->
  same2 (apply_mask (apply_mask arr (Cells cs)) (Cells ds)) (apply_mask arr (Cells (map2 compose cs ds))).
Proof. exact mask_compose. Qed.
Print Assumptions C22_compose.

(** C47. The mean lies between the smallest and the largest grain size. *)
Theorem C47_mean : forall lo hi sizes mass, length sizes = length mass -> within lo hi sizes -> all_nonneg mass -> 0 < qsum mass ->
  lo <= calc_mean_grain_size sizes mass /\ calc_mean_grain_size sizes mass <= hi.
Proof. exact mean_grain_within. Qed.
Print Assumptions C47_mean.
(** A percentile can be smaller than every grain size. *)
Theorem C47_percentile_refuted : exists sizes mass percent, length sizes = length mass /\ all_nonneg mass /\ 0 < qsum mass /\ 0 < percent /\ percent <= 100 /\
  (forall d, In d sizes -> calc_grain_size sizes mass percent < d).
Proof. exact c47_lower_refuted. Qed.
Print Assumptions C47_percentile_refuted.
(** Full statement: between the smallest and the largest. Proved: between zero and the largest. *)
Theorem C47_percentile_partial : forall sizes mass hi percent, length sizes = length mass -> sizes <> [] -> all_nonneg mass -> 0 < qsum mass ->
  within 0 hi sizes -> 0 < percent -> percent <= 100 ->
  0 <= calc_grain_size sizes mass percent /\ calc_grain_size sizes mass percent <= hi.
Proof. exact grain_size_bounds. Qed.
Print Assumptions C47_percentile_partial.
Theorem C47_single : forall d m percent, 0 < m -> calc_grain_size [d] [m] percent == percent / 100 * d.
Proof. exact grain_size_single. Qed.
Print Assumptions C47_single.
Theorem C47_monotone : forall sizes mass p q, length sizes = length mass -> sizes <> [] -> all_nonneg mass -> 0 < qsum mass ->
  StronglySorted Qle (0 :: sizes) -> 0 < p -> p <= q -> q <= 100 ->
  calc_grain_size sizes mass p <= calc_grain_size sizes mass q.
Proof. exact grain_size_monotone. Qed.
Print Assumptions C47_monotone.
Example C47_ex : length [1; 4] = length [5; 15] /\ all_nonneg [5; 15] /\ 0 < qsum [5; 15] /\ StronglySorted Qle (0 :: [1; 4]) /\
  Qred (calc_grain_size [1; 4] [5; 15] 50) = 2 /\ Qred (calc_grain_size [1; 4] [5; 15] 90) = 18 # 5 /\
  Qred (calc_mean_grain_size [1; 4] [5; 15]) = 13 # 4.
Proof. exact c47_percentile_case. Qed.
