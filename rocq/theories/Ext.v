(** Real numbers with the infinities and NaN of IEEE arithmetic (no rounding, one zero). *)
From Verif Require Import Base.
From Coq Require Import Reals Lra.
Open Scope R_scope.

Inductive ext := Fin (x : R) | PInf | NInf | NaN.

Definition sgn_inf (x : R) (pos neg : ext) : ext :=
  if Rlt_dec 0 x then pos else if Rlt_dec x 0 then neg else NaN.
Definition eneg (a : ext) : ext := match a with Fin x => Fin (- x) | PInf => NInf | NInf => PInf | NaN => NaN end.
Definition eadd (a b : ext) : ext :=
  match a, b with
  | Fin x, Fin y => Fin (x + y)
  | NaN, _ | _, NaN => NaN
  | PInf, NInf | NInf, PInf => NaN
  | PInf, _ | _, PInf => PInf
  | NInf, _ | _, NInf => NInf
  end.
Definition esub (a b : ext) : ext := eadd a (eneg b).
Definition emul (a b : ext) : ext :=
  match a, b with
  | Fin x, Fin y => Fin (x * y)
  | NaN, _ | _, NaN => NaN
  | Fin x, PInf | PInf, Fin x => sgn_inf x PInf NInf
  | Fin x, NInf | NInf, Fin x => sgn_inf x NInf PInf
  | PInf, PInf | NInf, NInf => PInf
  | PInf, NInf | NInf, PInf => NInf
  end.
(** Division by a non-zero real. *)
Definition ediv (a : ext) (y : R) : ext := emul a (Fin (/ y)).
Definition esqr (a : ext) : ext := emul a a.
Definition ecube (a : ext) : ext := emul (emul a a) a.
(** Square root: NaN of a negative number. *)
Definition esqrt (a : ext) : ext :=
  match a with Fin x => if Rlt_dec x 0 then NaN else Fin (sqrt x) | PInf => PInf | _ => NaN end.
(** numpy.maximum propagates NaN. *)
Definition emax (a b : ext) : ext :=
  match a, b with
  | NaN, _ | _, NaN => NaN
  | PInf, _ | _, PInf => PInf
  | NInf, y => y
  | x, NInf => x
  | Fin x, Fin y => Fin (Rmax x y)
  end.
(** a <= b; comparisons with NaN are false. *)
Definition ele (a b : ext) : Prop :=
  match a, b with
  | NaN, _ | _, NaN => False
  | NInf, _ | _, PInf => True
  | Fin x, Fin y => x <= y
  | _, _ => False
  end.
Lemma ele_refl a : a <> NaN -> ele a a.
Proof. destruct a; cbn; try tauto; lra. Qed.
Lemma ele_trans a b c : ele a b -> ele b c -> ele a c.
Proof. destruct a, b, c; cbn; try tauto; lra. Qed.
Definition eleb (a b : ext) : bool :=
  match a, b with
  | NaN, _ | _, NaN => false
  | NInf, _ | _, PInf => true
  | Fin x, Fin y => if Rle_dec x y then true else false
  | _, _ => false
  end.
Lemma eleb_spec a b : eleb a b = true <-> ele a b.
Proof. destruct a, b; cbn; try tauto; try (split; [discriminate|tauto]). destruct (Rle_dec x x0); split; try tauto; discriminate. Qed.
Definition is_fin (a : ext) : Prop := exists x, a = Fin x.
