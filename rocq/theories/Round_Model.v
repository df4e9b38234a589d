(* The clock of a run and its output schedule in the arithmetic of the machine: every sum and every product is rounded to the nearest
   double.  aeolis/model.py:207, 346, 2395, 2518-2525, 2787-2801. *)
From Coq Require Import QArith Qpower Qround Qabs ZArith Bool List.
From Verif Require Import Base Num.
Import ListNotations.
Open Scope Q_scope.

(* The exponent of a positive number: the largest e with 2^e <= a.  (Binary floating point; no counterpart in the code.) *)
Definition expo (a : Q) : Z :=
  let e := (Z.log2 (Qnum a) - Z.log2 (QDen a))%Z in if Qle_bool (2 ^ e) a then e else (e - 1)%Z.

(* The nearest whole number, of two equally near the even one.  (IEEE 754 roundTiesToEven; no counterpart in the code.) *)
Definition near_even (x : Q) : Z :=
  let f := Qfloor x in
  match Qcompare (x - inject_Z f) (1 # 2) with Lt => f | Gt => (f + 1)%Z | Eq => if Z.even f then f else (f + 1)%Z end.

(* The double nearest to a number: 53 significant binary digits.  Python's float and numpy's float64, which hold self.t, self.dt and the
   settings.  Simplification: the range of exponents is not limited, so there is no overflow to infinity and no gradual underflow. *)
Definition dbl (q : Q) : Q :=
  if Qeq_bool q 0 then 0 else
  let e := expo (qabs q) in
  let r := inject_Z (near_even (qabs q * 2 ^ (52 - e))) * 2 ^ (e - 52) in
  Qred (if Qle_bool 0 q then r else - r).

(* The settings that govern the clock, as written in the configuration file. *)
Record timing := { g_tstart : Q; g_tstop : Q; g_dt : Q; g_accfac : Q; g_out : Q }.

(* What the runner knows of the time: self.t, self.tout, the number of updates made and the updates after which output was written. *)
Record ticker := { k_t : Q; k_tout : Q; k_steps : nat; k_outs : list nat }.

(* aeolis/model.py:2787-2801: output is written if the interval has passed or the time is zero.  [rnd] rounds the difference. *)
Definition write (rnd : Q -> Q) (g : timing) (k : ticker) : ticker :=
  if Qle_bool (rnd (g_out g)) (rnd (k_t k - k_tout k)) || Qeq_bool (k_t k) 0
  then {| k_t := k_t k; k_tout := k_t k; k_steps := k_steps k; k_outs := k_outs k ++ [k_steps k] |}
  else k.

(* aeolis/model.py:346: self.t += self.dt * self.p['accfac'].  Simplification: self.dt is the configured time step (an implicit scheme
   and no limit on the bed level change, cf. Time_Model.set_timestep). *)
Definition advance (rnd : Q -> Q) (g : timing) (k : ticker) : ticker :=
  {| k_t := rnd (k_t k + rnd (rnd (g_dt g) * rnd (g_accfac g))); k_tout := k_tout k; k_steps := S (k_steps k); k_outs := k_outs k |}.

(* aeolis/model.py:2520-2525: the loop of a run.  [fuel] bounds the number of updates; None: not ended within it. *)
Fixpoint turns (rnd : Q -> Q) (g : timing) (fuel : nat) (k : ticker) : option ticker :=
  if Qle_bool (k_t k) (rnd (g_tstop g))
  then match fuel with O => None | S fuel' => turns rnd g fuel' (write rnd g (advance rnd g k)) end
  else Some k.

(* aeolis/model.py:207, 2395, 2518-2525: a run, from reading the configuration (a setting that is no double is rounded to one) to the
   end of the loop. *)
Definition ticking (rnd : Q -> Q) (g : timing) (fuel : nat) : option ticker :=
  turns rnd g fuel (write rnd g {| k_t := rnd (g_tstart g); k_tout := 0; k_steps := 0; k_outs := [] |}).
