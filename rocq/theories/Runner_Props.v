(** Property theorems about output: C13, C14, C15, C17, C18. *)
From Coq Require Import Sorting.Sorted.
From Verif Require Import Base Num Config_Model State_Model Runner_Model Runner_Spec Runner_Proofs Runner_File Runner_Cases.
Open Scope Q_scope.

(** C13. A run that starts at a positive time before the first output interval has passed writes no
    output at its first time point. *)
Theorem C13_late_start_refuted : exists c tstart m r0 r, 0 < tstart /\ supports c m /\
  initialize c tstart m = Ok r0 /\ do_calls c (loop_calls []) r0 = Ok r /\ nc_time (file r) = [].
Proof. exact late_start_no_output. Qed.
Print Assumptions C13_late_start_refuted.
Theorem C13_schedule_partial : forall c tstart m l r0 r,
  (forall k exts, In (k, exts) (outvars c) -> plain k) -> NoDup (dkeys (outvars c)) ->
  0 <= times c -> tstart == 0 \/ 0 < tstart /\ times c <= tstart ->
  StronglySorted Qlt (tstart :: map new_t l) ->
  initialize c tstart m = Ok r0 -> do_calls c (loop_calls l) r0 = Ok r ->
  well_scheduled (times c) (tstart :: map new_t l) (nc_time (file r)).
Proof. exact output_schedule. Qed.
Print Assumptions C13_schedule_partial.
Theorem C13_gap : forall interval step points written, 0 <= interval -> StronglySorted Qlt points ->
  (forall pre a b post, points = pre ++ a :: b :: post -> b - a <= step) ->
  well_scheduled interval points written ->
  forall pre a b post, written = pre ++ a :: b :: post -> interval <= b - a <= interval + step.
Proof. exact schedule_gap. Qed.
Print Assumptions C13_gap.
Example C13_schedule_partial_ex : (forall k exts, In (k, exts) (outvars c_all) -> plain k) /\ NoDup (dkeys (outvars c_all)) /\
  StronglySorted Qlt (0 :: map new_t steps) /\
  (forall pre a b post, 0 :: map new_t steps = pre ++ a :: b :: post -> b - a <= 100) /\
  times_of (run_from c_all 0 steps) = Some [0; 300].
Proof. exact (conj c_all_plain (conj c_all_nodup (conj ex_sorted (conj ex_steps ex_run)))). Qed.

(** C14. Statistics that were not requested are answered with infinity, and a query with the default
    argument makes the next update discard what was gathered. For requested statistics the values
    reported are those of the list of values since the last reset. *)
Theorem C14_unrequested_refuted : exists c tstart m xs r0 r r', initialize c tstart m = Ok r0 /\ do_calls c xs r0 = Ok r /\
  seen (track c zb tstart xs) = [4; 1] /\ get (txt "zb_min") false r = Ok (PosInf, r').
Proof. exact unrequested. Qed.
Print Assumptions C14_unrequested_refuted.
Theorem C14_query_discards_refuted : exists c tstart m xs r0 r r', initialize c tstart m = Ok r0 /\ do_calls c xs r0 = Ok r /\
  xs = [Get zb false; Update (st 100 4); Get hs true; Update (st 200 1)] /\
  nc_time (file r) = [] /\ get (txt "zb_sum") false r = Ok (Num 1, r').
Proof. exact query_discards. Qed.
Print Assumptions C14_query_discards_refuted.
Theorem C14_statistics_partial : forall c types vars tstart m xs r0 r k e (x : ascii),
  (forall v, In v vars -> ~ (In "_"%char v /\ In "."%char v)) -> output_vars types vars [] = Ok (outvars c) ->
  initialize c tstart m = Ok r0 -> do_calls c xs r0 = Ok r -> plain k -> x = "_"%char \/ x = "."%char ->
  In (k ++ x :: stat_name e) vars \/ (In k vars /\ In (stat_name e) types) ->
  exists v r', get (k ++ txt "_" ++ stat_name e) false r = Ok (v, r') /\ stat_of e (seen (track c k tstart xs)) v.
Proof. exact statistics_requested. Qed.
Print Assumptions C14_statistics_partial.
Example C14_statistics_partial_ex : exists r0 r, initialize c_all 0 (g 0) = Ok r0 /\
  do_calls c_all [Get zb false; Update (st 100 4); Update (st 200 1); Get zb false; Update (st 300 7)] r0 = Ok r /\
  seen (track c_all zb 0 [Get zb false; Update (st 100 4); Update (st 200 1); Get zb false; Update (st 300 7)]) = [4; 1; 7] /\
  (exists r', get (txt "zb_min") false r = Ok (Num 1, r')) /\ (exists r', get (txt "zb_max") false r = Ok (Num 7, r')) /\
  (exists q r', get (txt "zb_var") false r = Ok (Num q, r') /\ q == 9).
Proof. exact ex_statistics. Qed.
Example C14_requested_ex : output_vars [txt "min"; txt "avg"] [zb; txt "zb_var"; txt "Hs.max"] [] =
  Ok [(zb, [None; Some (txt "min"); Some (txt "avg"); Some (txt "var")]); (hs, [Some (txt "max"); Some (txt "min"); Some (txt "avg")])].
Proof. exact ex_requested. Qed.

(** C15. The attribute [clear] exists only after a query, so that an update before any query fails,
    and a run fails whose output consists of statistics only; variables with an underscore in their
    name cannot be retrieved. *)
Theorem C15_update_first_refuted : exists c tstart m r0 a, supports c m /\ sane c (Update a) /\
  initialize c tstart m = Ok r0 /\ do_calls c [Update a] r0 = Raise AttributeError.
Proof. exact order_refuted. Qed.
Print Assumptions C15_update_first_refuted.
Theorem C15_statistics_only_refuted : exists c tstart m r0 l, tstart = 0 /\ initialize c tstart m = Ok r0 /\
  do_calls c (loop_calls l) r0 = Raise AttributeError /\ forall k exts, In (k, exts) (outvars c) -> plain k /\ In k (dkeys (vals (s m))).
Proof. exact run_of_statistics_fails. Qed.
Print Assumptions C15_statistics_only_refuted.
Theorem C15_names_refuted : exists c tstart m r0, initialize c tstart m = Ok r0 /\
  (In swr (dkeys (vals (s m))) /\ exists r, get swr true r0 = Ok (Nothing, r)) /\
  (In scan (dkeys (vals (s m))) /\ get scan true r0 = Raise ValueError).
Proof. exact unreachable_names. Qed.
Print Assumptions C15_names_refuted.
Theorem C15_first_update_always_fails : forall c tstart m a xs r0,
  initialize c tstart m = Ok r0 -> do_calls c (Update a :: xs) r0 = Raise AttributeError.
Proof. exact first_update_fails. Qed.
Print Assumptions C15_first_update_always_fails.
Theorem C15_any_order_partial : forall c tstart m var b xs, NoDup (dkeys (outvars c)) -> restart c = None -> supports c m ->
  sane c (Get var b) -> Forall (sane c) xs ->
  exists r0 r, initialize c tstart m = Ok r0 /\ do_calls c (Get var b :: xs) r0 = Ok r.
Proof. exact any_order. Qed.
Print Assumptions C15_any_order_partial.
Example C15_any_order_partial_ex : supports c_all (g 0) /\ sane c_all (Get zb true) /\
  Forall (sane c_all) [Update (st 100 4); Get hs false; Write; Get zb true; Update (st 200 5)].
Proof. exact (conj (c_all_supports 0) ex_any_order). Qed.
(** Names: without separator the variable itself; with one underscore never the variable of that
    name; with two or more an exception. *)
Theorem C15_plain_names_partial : forall r k, plain k -> lookup_var r k = base_get r k.
Proof. exact lookup_plain. Qed.
Print Assumptions C15_plain_names_partial.
Example C15_plain_names_partial_ex : plain zb.
Proof. exact zb_plain. Qed.
Theorem C15_one_underscore : forall r a b, plain a -> ~ In "_"%char b -> ~ In a (dkeys (o r)) ->
  lookup_var r (a ++ txt "_" ++ b) = base_get r a.
Proof. exact one_underscore. Qed.
Print Assumptions C15_one_underscore.
Theorem C15_two_underscores : forall r a b d, ~ In "_"%char a -> ~ In "_"%char b ->
  lookup_var r (a ++ txt "_" ++ b ++ txt "_" ++ d) = Raise ValueError.
Proof. exact two_underscores. Qed.
Print Assumptions C15_two_underscores.

(** The statistics of a variable are reached with an underscore or a dot; where none are kept, one gets the variable itself. *)
Theorem C15_underscore_statistic : forall r a b, ~ In "_"%char a -> ~ In "_"%char b -> In a (dkeys (o r)) ->
  lookup_var r (a ++ txt "_" ++ b) = get_statistic r a b.
Proof. exact one_underscore_stat. Qed.
Print Assumptions C15_underscore_statistic.
Theorem C15_dotted : forall r a b, plain a -> ~ In "_"%char b -> ~ In "."%char b ->
  (In a (dkeys (o r)) -> lookup_var r (a ++ txt "." ++ b) = get_statistic r a b) /\
  (~ In a (dkeys (o r)) -> lookup_var r (a ++ txt "." ++ b) = base_get r a).
Proof. exact dotted_name. Qed.
Print Assumptions C15_dotted.
Example C15_dotted_ex : exists r, initialize c_all 0 (g 0) = Ok r /\
  In zb (dkeys (o r)) /\ plain zb /\ ~ In (txt "ds") (dkeys (o r)) /\ plain (txt "ds").
Proof. exact ex_statistic_names. Qed.

(** C17. With a restart interval configured, the run ends with an exception at the first time a restart
    file is due. *)
Theorem C17_run_with_restart_fails : forall c r q r1, restart c = Some q -> ~ q == 0 -> write_output c r = Ok r1 ->
  q <= rt r1 - trestart r1 -> output_write c r = Raise TypeError.
Proof. exact restart_aborts. Qed.
Print Assumptions C17_run_with_restart_fails.
Example C17_run_with_restart_fails_ex : exists r0 r r1, initialize c_restart 0 (g 0) = Ok r0 /\
  do_calls c_restart restart_calls r0 = Ok r /\ write_output c_restart r = Ok r1 /\ 200 <= rt r1 - trestart r1.
Proof. exact ex_restart. Qed.

(** C18. *)
Theorem C18_bounds_and_history : forall c tstart m xs ys r0 r r',
  (forall k exts, In (k, exts) (outvars c) -> plain k) -> NoDup (dkeys (outvars c)) ->
  initialize c tstart m = Ok r0 -> do_calls c xs r0 = Ok r -> do_calls c ys r = Ok r' ->
  contiguous 0 (nc_time (file r')) (nc_bounds (file r')) /\ extends (file r) (file r').
Proof. exact file_history. Qed.
Print Assumptions C18_bounds_and_history.
Theorem C18_slice : forall c tstart m xs r0 r r',
  (forall k exts, In (k, exts) (outvars c) -> plain k) -> NoDup (dkeys (outvars c)) ->
  initialize c tstart m = Ok r0 -> do_calls c xs r0 = Ok r -> output_write c r = Ok r' ->
  nc_time (file r') = nc_time (file r) ++ [rt r] ->
  forall k exts e, In (k, exts) (outvars c) -> In e exts -> exists v l,
  value_of r k e v /\ dget (out_name k e) (nc_vars (file r')) = Some l /\ nth_error l (length (nc_time (file r))) = Some v.
Proof. exact slice_written. Qed.
Print Assumptions C18_slice.
Example C18_ex : exists r0 r, initialize c_all 0 (g 0) = Ok r0 /\ do_calls c_all (loop_calls steps) r0 = Ok r /\
  nc_bounds (file r) = [(0, 0); (0, 300)] /\ dget (txt "zb_max") (nc_vars (file r)) = Some [NegInf; Num 7].
Proof. exact ex_file. Qed.
