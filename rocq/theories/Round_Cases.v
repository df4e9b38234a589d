(* Concrete clocks. *)
From Coq Require Import QArith Qpower Qround ZArith Bool List Arith Lia.
From Verif Require Import Base Num Time_Spec Round_Model Round_Dbl Round_Spec Round_Proofs Round_Error.
Import ListNotations.
Open Scope Q_scope.

(* An hour in minutes, accelerated once, with output every ten minutes. *)
Definition hour : timing := {| g_tstart := 0; g_tstop := 3600; g_dt := 60; g_accfac := 1; g_out := 600 |}.
(* Tenths of a second. *)
Definition tenths (stop out : Q) : timing := {| g_tstart := 0; g_tstop := stop; g_dt := 1 # 10; g_accfac := 1; g_out := out |}.

Lemma forward_hour : forward hour.
Proof. repeat split; try discriminate; reflexivity. Qed.
Lemma binary_hour : binary 0 hour.
Proof.
  unfold binary. split; [exists 0%Z; reflexivity|]. split; [exists 3600%Z; reflexivity|]. split; [exists 60%Z; reflexivity|].
  split; [exists 600%Z; reflexivity|]. split; [exists 1%Z; reflexivity|]. repeat split; discriminate.
Qed.
Lemma binary_clock_case : forward hour /\ binary 0 hour /\ updates hour = 61%nat /\
  exists r, ticking dbl hour 100 = Some r /\ k_steps r = 61%nat /\ k_t r == 3660 /\ k_outs r = [0; 10; 20; 30; 40; 50; 60]%nat.
Proof.
  split; [exact forward_hour|]. split; [exact binary_hour|]. split; [reflexivity|]. eexists. split; [vm_compute; reflexivity|]. repeat split.
Qed.
Lemma binary_output_case : g_tstart hour == 0 /\ g_out hour == inject_Z (Z.of_nat 10) * interval hour /\
  every 10 (updates hour) = [0; 10; 20; 30; 40; 50; 60]%nat.
Proof. repeat split. Qed.

Lemma forward_tenths a b : 0 < a -> 0 < b -> forward (tenths a b).
Proof. intros A B. repeat split; simpl; try lra; reflexivity. Qed.
Lemma one_off_case : forward (tenths (3 # 10) 1) /\ short (tenths (3 # 10) 1).
Proof. split; [apply forward_tenths; reflexivity|]. vm_compute. reflexivity. Qed.
Lemma one_off_output_case : forward (tenths 5 1) /\ short (tenths 5 1) /\ g_out (tenths 5 1) == inject_Z (Z.of_nat 10) * interval (tenths 5 1) /\
  exists r, ticking dbl (tenths 5 1) 100 = Some r /\ k_outs r = [0; 11; 21; 31; 41]%nat /\ k_steps r = 51%nat.
Proof.
  split; [apply forward_tenths; reflexivity|]. split; [vm_compute; reflexivity|]. split; [reflexivity|].
  eexists. split; [vm_compute; reflexivity|]. split; reflexivity.
Qed.

(* Three tenths of a second in steps of a tenth: the fourth time point is 0.30000000000000004 and is not within the stop time. *)
Lemma decimal_clock : exists g r, forward g /\ short g /\ ticking dbl g 100 = Some r /\ updates g = 4%nat /\ k_steps r = 3%nat.
Proof.
  exists (tenths (3 # 10) 1). eexists. destruct one_off_case as [F S]. split; [exact F|]. split; [exact S|].
  split; [vm_compute; reflexivity|]. split; reflexivity.
Qed.
(* Output every second in steps of a tenth: ten tenths add up to 0.9999999999999999, and output comes after eleven. *)
Lemma decimal_output : exists g r, forward g /\ short g /\ g_tstart g == 0 /\ g_out g == inject_Z (Z.of_nat 10) * interval g /\
  ticking dbl g 100 = Some r /\ k_steps r = updates g /\ every 10 (updates g) = [0; 10; 20; 30; 40; 50]%nat /\ k_outs r = [0; 11; 21; 31; 41]%nat.
Proof.
  exists (tenths 5 1). eexists. destruct one_off_output_case as (F & S & O & _). split; [exact F|]. split; [exact S|]. split; [reflexivity|].
  split; [exact O|]. split; [vm_compute; reflexivity|]. repeat split.
Qed.
