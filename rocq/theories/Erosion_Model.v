(** Model of dune erosion, /repo/aeolis/erosion.py:46-149 [run_ph12]. Rational arithmetic. The cumulative normal distribution is a
    parameter, [cdf]; scipy gives nan for a standard deviation that is not positive. The peak period is taken to be positive. Not modelled:
    missing time series, grids with fewer than two columns, and nan in the bed. *)
From Verif Require Import Base Num Utils_Model Solver_Model.
Open Scope Q_scope.

(** numpy.nanargmin of the first n values: the first index of the smallest. *)
Fixpoint argmin (f : nat -> Q) (n : nat) : nat :=
  match n with O => O | S m => let i := argmin f m in if Qltb (f m) (f i) then m else i end.
(** The parameters; Cs has no default (constants.py:320-329), so that p['Cs'] may be missing. *)
Record params := { toe : Q; slope : Q; Cs : option Q; dt : Q }.
(** One row: positions, bed levels, runup, setup and swash in its first cell. *)
Record transect := { x : nat -> Q; zb : nat -> Q; runup : Q; setup : Q; sigma_s : Q }.
Definition with_bed (r : transect) (z : nat -> Q) : transect := {| x := x r; zb := z; runup := runup r; setup := setup r; sigma_s := sigma_s r |}.

Section Row.
Variables (cdf : Q -> Q) (nx : nat) (p : params) (wl Tp : Q) (r : transect).
(** erosion.py:83 *)
Definition twl : Q := runup r * (126 # 100) + wl.
(** erosion.py:99-100: the cell nearest to the dune toe in elevation; the grid has nx + 1 columns. *)
Definition st0 : nat := argmin (fun j => qabs (zb r j - toe p)) (S nx).
(** erosion.py:104-109: the trajectory of the dune toe, from that cell. *)
Definition zbT (j : nat) : Q := let z := slope p * (54 # 100) * (x r j - x r st0) + toe p in if Qltb (zb r j) z then zb r j else z.
(** erosion.py:91, 112-113: the volume above the trajectory up to the k-th cell from the toe, without the first. *)
Definition dx : Q := qabs (x r 1%nat - x r 0%nat).
Definition cumulative (k : nat) : Q := sumn (S k) (fun m => dx * (zb r (st0 + m) - zbT (st0 + m))).
Definition Vc (k : nat) : Q := cumulative k - cumulative 0.
(** erosion.py:116: None is nan. *)
Definition p_collision : option Q := if Qltb 0 (sigma_s r) then Some (1 - cdf ((toe p - (setup r + wl)) / sigma_s r)) else None.
(** erosion.py:117-121 *)
Definition volume (cs pc : Q) : Q := 4 * cs * ((twl - toe p) * (twl - toe p)) * (pc * dt p / Tp).
(** erosion.py:123-126: with nan, nanargmin raises ValueError. *)
Definition scarp (dV : Q) : nat := if Qltb dV 0 then 0%nat else argmin (fun k => qabs (Vc k - dV)) (S nx - st0).
(** erosion.py:82-147 for one row. *)
Definition erode : result transect :=
  if Qltb (toe p) twl then
    match Cs p with
    | None => Raise KeyError
    | Some cs => match p_collision with
      | None => Raise ValueError
      | Some pc => let ds := scarp (volume cs pc) in
          Ok (with_bed r (fun j => if (Nat.leb st0 j && Nat.ltb j (st0 + ds))%bool then zbT j else zb r j))
      end
    end
  else Ok r.
End Row.
(** erosion.py:67-149: the rows one after the other. *)
Fixpoint rows (cdf : Q -> Q) (nx : nat) (p : params) (wl Tp : Q) (rs : list transect) : result (list transect) :=
  match rs with
  | [] => Ok []
  | r :: rs => let* r' := erode cdf nx p wl Tp r in let* rs' := rows cdf nx p wl Tp rs in Ok (r' :: rs')
  end.
(** With water level and peak period from the time series tide_file and wave_file. *)
Definition run_ph12 (cdf : Q -> Q) (nx : nat) (p : params) (tide wave : (Q * Q) * list (Q * Q)) (t : Q) (rs : list transect) : result (list transect) :=
  rows cdf nx p (interp_circular t (fst tide) (snd tide)) (interp_circular t (fst wave) (snd wave)) rs.
