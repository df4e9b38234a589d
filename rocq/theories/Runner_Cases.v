(** Concrete cases for the output properties. *)
From Coq Require Import Sorting.Sorted.
From Verif Require Import Base Num Config_Model State_Model State_Proofs Runner_Model Runner_Spec Runner_Proofs Runner_File.
Open Scope Q_scope.

Definition zb := txt "zb".
Definition hs := txt "Hs".
Definition swr := txt "moist_swr".
Definition scan := txt "scan_w_moist".
(** Four grids: two plain names, and two names with underscores (constants.py:63-149). *)
Definition g (q : Q) : model Q :=
  {| s := {| vals := [(zb, q); (hs, 2 * q); (swr, 7); (scan, 8)]; ismutable := [] |}; p := [] |}.
Definition st (t q : Q) : after := {| new_grids := g q; new_t := t; new_dt := 100 |}.

(** zb itself and all five statistics of it, and the wave height. *)
Definition c_all : config :=
  {| outvars := [(zb, [None; Some (txt "min"); Some (txt "max"); Some (txt "sum"); Some (txt "avg"); Some (txt "var")]); (hs, [None])];
     times := 250; restart := None |}.
Definition c_avg : config := {| outvars := [(zb, [Some (txt "avg")])]; times := 250; restart := None |}.
Definition c_restart : config := {| outvars := [(zb, [None])]; times := 250; restart := Some 200 |}.
Definition steps : list after := [st 100 4; st 200 1; st 300 7; st 400 2; st 500 3].

Lemma zb_plain : plain zb.
Proof. split; cbn; intros H; repeat (destruct H as [H|H]; [discriminate|]); destruct H. Qed.
Lemma hs_plain : plain hs.
Proof. split; cbn; intros H; repeat (destruct H as [H|H]; [discriminate|]); destruct H. Qed.
Lemma c_all_plain : forall k exts, In (k, exts) (outvars c_all) -> plain k.
Proof.
  intros k exts [H|[H|[]]]; injection H as <- _; [exact zb_plain|exact hs_plain].
Qed.
Lemma c_all_nodup : NoDup (dkeys (outvars c_all)).
Proof. apply nodupb_spec. reflexivity. Qed.
Lemma c_all_supports q : supports c_all (g q).
Proof.
  intros k exts [H|[H|[]]]; injection H as <- _.
  - split; [exact zb_plain|]. split; [cbn; tauto|]. exists q. reflexivity.
  - split; [exact hs_plain|]. split; [cbn; tauto|]. exists (2 * q). reflexivity.
Qed.

(** Output times of a run of five steps of 100 s with output every 250 s. *)
Definition times_of (r : result runner) : option (list Q) := match r with Ok x => Some (nc_time (file x)) | Raise _ => None end.
Definition run_from (c : config) (tstart : Q) (l : list after) : result runner :=
  let* r0 := initialize c tstart (g 0) in do_calls c (loop_calls l) r0.
Lemma ex_run : times_of (run_from c_all 0 steps) = Some [0; 300].
Proof. vm_compute. reflexivity. Qed.
Lemma ex_sorted : StronglySorted Qlt (0 :: map new_t steps).
Proof. repeat constructor. Qed.
Lemma ex_steps : forall pre a b post, 0 :: map new_t steps = pre ++ a :: b :: post -> b - a <= 100.
Proof.
  intros pre a b post H.
  destruct pre as [|x1 [|x2 [|x3 [|x4 [|x5 [|x6 pre]]]]]]; cbn in H; try discriminate H;
    try (injection H; intros; subst; vm_compute; discriminate).
  injection H. intros E. destruct pre; discriminate.
Qed.


Lemma late_start_no_output : exists c tstart m r0 r, 0 < tstart /\ supports c m /\
  initialize c tstart m = Ok r0 /\ do_calls c (loop_calls []) r0 = Ok r /\ nc_time (file r) = [].
Proof.
  exists c_all, 100, (g 0). eexists. eexists. split; [reflexivity|]. split; [apply c_all_supports|].
  split; [reflexivity|]. split; [reflexivity|]. reflexivity.
Qed.
Lemma late_start_fails : run_from c_all 100 [st 200 1] = Raise AttributeError.
Proof. vm_compute. reflexivity. Qed.
Lemma statistics_only_fails : run_from c_avg 0 [st 100 1] = Raise AttributeError.
Proof. vm_compute. reflexivity. Qed.
Lemma order_refuted : exists c tstart m r0 a, supports c m /\ sane c (Update a) /\
  initialize c tstart m = Ok r0 /\ do_calls c [Update a] r0 = Raise AttributeError.
Proof.
  exists c_all, 0, (g 0). eexists. exists (st 100 1). split; [apply c_all_supports|]. split; [apply c_all_supports|].
  split; [reflexivity|]. reflexivity.
Qed.
(** A default run whose output variables are statistics only fails after the first output. *)
Lemma run_of_statistics_fails : exists c tstart m r0 l, tstart = 0 /\ initialize c tstart m = Ok r0 /\
  do_calls c (loop_calls l) r0 = Raise AttributeError /\ forall k exts, In (k, exts) (outvars c) -> plain k /\ In k (dkeys (vals (s m))).
Proof.
  exists c_avg, 0, (g 0). eexists. exists [st 100 1]. split; [reflexivity|]. split; [reflexivity|]. split; [reflexivity|].
  intros k exts [H|[]]; injection H as <- _. split; [exact zb_plain|cbn; tauto].
Qed.
Lemma ex_any_order : sane c_all (Get zb true) /\ Forall (sane c_all) [Update (st 100 4); Get hs false; Write; Get zb true; Update (st 200 5)].
Proof.
  assert (H : forall q, supports c_all (g q)) by (exact c_all_supports).
  assert (Hz : sane c_all (Get zb true)) by (split; [exact zb_plain|split; discriminate]).
  split; [exact Hz|].
  apply Forall_cons; [apply H|]. apply Forall_cons; [split; [exact hs_plain|split; discriminate]|].
  apply Forall_cons; [exact I|]. apply Forall_cons; [exact Hz|]. apply Forall_cons; [apply H|]. constructor.
Qed.

(** Names with an underscore. *)
Lemma unreachable_names : exists c tstart m r0, initialize c tstart m = Ok r0 /\
  (In swr (dkeys (vals (s m))) /\ exists r, get swr true r0 = Ok (Nothing, r)) /\
  (In scan (dkeys (vals (s m))) /\ get scan true r0 = Raise ValueError).
Proof.
  exists c_all, 0, (g 0). eexists. split; [reflexivity|]. split.
  - split; [cbn; tauto|]. eexists. reflexivity.
  - split; [cbn; tauto|reflexivity].
Qed.

(** Statistics. *)
Lemma ex_statistics : exists r0 r, initialize c_all 0 (g 0) = Ok r0 /\
  do_calls c_all [Get zb false; Update (st 100 4); Update (st 200 1); Get zb false; Update (st 300 7)] r0 = Ok r /\
  seen (track c_all zb 0 [Get zb false; Update (st 100 4); Update (st 200 1); Get zb false; Update (st 300 7)]) = [4; 1; 7] /\
  (exists r', get (txt "zb_min") false r = Ok (Num 1, r')) /\ (exists r', get (txt "zb_max") false r = Ok (Num 7, r')) /\
  (exists q r', get (txt "zb_var") false r = Ok (Num q, r') /\ q == 9).
Proof.
  eexists. eexists. split; [reflexivity|]. split; [vm_compute; reflexivity|]. split; [reflexivity|].
  split; [eexists; reflexivity|]. split; [eexists; reflexivity|]. eexists. eexists. split; [reflexivity|]. reflexivity.
Qed.
Lemma ex_requested : output_vars [txt "min"; txt "avg"] [zb; txt "zb_var"; txt "Hs.max"] [] =
  Ok [(zb, [None; Some (txt "min"); Some (txt "avg"); Some (txt "var")]); (hs, [Some (txt "max"); Some (txt "min"); Some (txt "avg")])].
Proof. vm_compute. reflexivity. Qed.
(** A statistic that was not requested. *)
Lemma unrequested : exists c tstart m xs r0 r r', initialize c tstart m = Ok r0 /\ do_calls c xs r0 = Ok r /\
  seen (track c zb tstart xs) = [4; 1] /\ get (txt "zb_min") false r = Ok (PosInf, r').
Proof.
  exists c_restart, 0, (g 0), [Get zb false; Update (st 100 4); Update (st 150 1)]. eexists. eexists. eexists.
  split; [reflexivity|]. split; [vm_compute; reflexivity|]. split; reflexivity.
Qed.
(** A query with the default argument discards the statistics gathered so far: 4 does not count. *)
Lemma query_discards : exists c tstart m xs r0 r r', initialize c tstart m = Ok r0 /\ do_calls c xs r0 = Ok r /\
  xs = [Get zb false; Update (st 100 4); Get hs true; Update (st 200 1)] /\
  nc_time (file r) = [] /\ get (txt "zb_sum") false r = Ok (Num 1, r').
Proof.
  exists c_all, 0, (g 0). eexists. eexists. eexists. eexists. split; [reflexivity|]. split; [|split; [reflexivity|]].
  - vm_compute. reflexivity.
  - split; reflexivity.
Qed.

(** Restart. *)
Definition restart_calls := [Get zb false; Write; Update (st 100 4); Write; Update (st 200 4)].
Lemma ex_restart : exists r0 r r1, initialize c_restart 0 (g 0) = Ok r0 /\ do_calls c_restart restart_calls r0 = Ok r /\
  write_output c_restart r = Ok r1 /\ 200 <= rt r1 - trestart r1.
Proof.
  eexists. eexists. eexists. split; [reflexivity|]. split; [vm_compute; reflexivity|]. split; [vm_compute; reflexivity|].
  vm_compute. discriminate.
Qed.
Lemma restart_run_fails : run_from c_restart 0 steps = Raise TypeError.
Proof. vm_compute. reflexivity. Qed.

(** The file. *)
Lemma ex_file : exists r0 r, initialize c_all 0 (g 0) = Ok r0 /\ do_calls c_all (loop_calls steps) r0 = Ok r /\
  nc_bounds (file r) = [(0, 0); (0, 300)] /\ dget (txt "zb_max") (nc_vars (file r)) = Some [NegInf; Num 7].
Proof.
  eexists. eexists. split; [reflexivity|]. split; [vm_compute; reflexivity|]. split; vm_compute; reflexivity.
Qed.

(** Statistics by name, of a variable for which they are kept and of one for which they are not. *)
Lemma ex_statistic_names : exists r, initialize c_all 0 (g 0) = Ok r /\
  In zb (dkeys (o r)) /\ plain zb /\ ~ In (txt "ds") (dkeys (o r)) /\ plain (txt "ds").
Proof.
  eexists. split; [vm_compute; reflexivity|]. split; [vm_compute; tauto|]. split; [exact zb_plain|].
  split; [|split]; cbn; intros H; repeat (destruct H as [H|H]; [discriminate|]); destruct H.
Qed.
