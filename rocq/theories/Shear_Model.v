(** Model of the two-dimensional wind shear, aeolis/shear.py 145-296 [WindShear.__call__] and the functions it uses. Reals instead of
    doubles, no NaN. The modified Bessel functions of the second kind (utils.py:337-338 [sc_kv], scipy) are a parameter [kv].
    Not modelled: plots, the transect branch of [interpolate] (one row), a roughness length that differs between cells, the filters of the
    separation bubble (sep_filter_iterations, zsep_y_filter; both off by default). *)
From Verif Require Import Base.
From Coq Require Import Reals.
Open Scope R_scope.

(** A field on a grid: row (second dimension of the model), column. *)
Definition field := nat -> nat -> R.
Record grid := { rows : nat; cols : nat; gx : field; gy : field }.
Definition place (g : grid) (r c : nat) : R * R := (gx g r c, gy g r c).
(** numpy.deg2rad and rad2deg. *)
Definition radians (d : R) : R := d / 180 * PI.
Definition degrees (a : R) : R := a * 180 / PI.
(** Python's [range] as a sum. *)
Fixpoint total (n : nat) (f : nat -> R) : R := match n with O => 0 | S m => total m f + f m end.

(** shear.py:817-833 [rotate], one point: the row vector relative to the origin times the matrix. *)
Definition turn (a : R) (o v : R * R) : R * R :=
  let xr := fst v - fst o in
  let yr := snd v - snd o in
  (xr * cos (radians a) + yr * sin (radians a) + fst o, - xr * sin (radians a) + yr * cos (radians a) + snd o).
Definition turn_grid (a : R) (o : R * R) (g : grid) : grid :=
  {| rows := rows g; cols := cols g; gx := fun r c => fst (turn a o (place g r c)); gy := fun r c => snd (turn a o (place g r c)) |}.

(** ** The computational grid *)
(** shear.py:314: the mean of the coordinates. *)
Definition mean (g : grid) (f : field) : R := total (rows g) (fun r => total (cols g) (f r)) / (INR (rows g) * INR (cols g)).
Definition centre (g : grid) : R * R := (mean g (gx g), mean g (gy g)).
(** shear.py:323-330 *)
Definition corner (g : grid) (i : nat) : R * R :=
  match i with
  | 0%nat => place g 0 0
  | 1%nat => place g (rows g - 1) 0
  | 2%nat => place g 0 (cols g - 1)
  | _ => place g (rows g - 1) (cols g - 1)
  end.
(** shear.py:333-339: directions of the numpy.arange(-1080, 1080, 90) are changed by 0.1 degrees. *)
Definition verticals : list Z := map (fun i => (-1080 + 90 * Z.of_nat i)%Z) (seq 0 24).
Definition leb (x y : R) : bool := if Rle_dec x y then true else false.
Definition vertical (u : R) : bool := existsb (fun v => leb (Rabs (u - IZR v)) (1 / 1000)) verticals.
Definition line_dir (u : R) : R := if vertical u then u - 1 / 10 else u.
(** shear.py:344-348: numpy.polyfit of degree one through two points is the line through them. *)
Definition fit (p q : R * R) : R * R :=
  let m := (snd q - snd p) / (fst q - fst p) in (m, snd p - m * fst p).
Definition line (u : R) (p : R * R) : R * R := fit p (fst p - sin (radians u), snd p - cos (radians u)).
(** shear.py:622-634 [maxDiff] *)
Definition wider (a : nat -> R) (i : nat) (r : R) (j : nat) : R :=
  let d := Rabs (a i - a j) + Rabs (INR i - INR j) in if Rlt_dec r d then d else r.
Definition maxDiff (n : nat) (a : nat -> R) : R :=
  fold_left (fun r i => fold_left (wider a i) (seq i (n - i)) r) (seq 0 n) 0.
(** shear.py:351-356: the size of the grid in the direction of the lines [u], without and with the buffer. *)
Definition extent (g : grid) (u : R) : R :=
  Rabs (maxDiff 4 (fun i => snd (line u (corner g i)))) / sqrt (fst (line u (corner g 3)) ^ 2 + 1).
Definition width (buffer : R) (g : grid) (udir : R) : R := extent g (line_dir udir) + buffer * 2.
Definition span (buffer : R) (g : grid) (udir : R) : R := extent g (line_dir udir - 90) + buffer * 2.
(** numpy.floor, ceil and arange. *)
Definition rfloor (r : R) : R := IZR (Int_part r).
Definition rceil (r : R) : R := - rfloor (- r).
Definition arange_count (a b d : R) : nat := Z.to_nat (- Int_part (- ((b - a) / d))).
(** shear.py:794-803 [get_exact_grid], one axis: first value and number of values. *)
Definition axis (lo hi d : R) : R * nat := (rfloor (lo / d) * d, arange_count (rfloor (lo / d) * d) (rceil (hi / d) * d) d).
Definition exact_grid (xlo xhi ylo yhi dx dy : R) : grid :=
  let '(x1, nx) := axis xlo xhi dx in
  let '(y1, ny) := axis ylo yhi dy in
  {| rows := ny; cols := nx; gx := fun r c => x1 + INR c * dx; gy := fun r c => y1 + INR r * dy |}.
(** shear.py:300-369 [set_computational_grid] *)
Definition computational (buffer dx dy : R) (g : grid) (udir : R) : grid :=
  let x0 := fst (centre g) in
  let y0 := snd (centre g) in
  let l := span buffer g udir in
  let w := width buffer g udir in
  exact_grid (x0 - l / 2) (x0 + l / 2) (y0 - w / 2) (y0 + w / 2) dx dy.

(** ** Interpolation from one grid to another *)
(** shear.py:841-847: the angle of the first row; arctan of an infinite quotient is a right angle. *)
Definition row_angle (g : grid) : R :=
  let dx := gx g 0%nat 1%nat - gx g 0%nat 0%nat in
  let dy := gy g 0%nat 1%nat - gy g 0%nat 0%nat in
  let a := if Req_EM_T dx 0 then (if Rlt_dec 0 dy then 90 else - 90) else degrees (atan (dy / dx)) in
  if (leb dx 0 && leb dy 0)%bool then a + 180 else a.
(** shear.py:854: is an array equal to the sorted array? *)
Definition ascending (n : nat) (f : nat -> R) : bool := forallb (fun i => leb (f i) (f (S i))) (seq 0 (n - 1)).
Definition upside_down (g : grid) : bool :=
  (negb (ascending (rows g) (fun r => gy g r 0%nat)) && negb (ascending (cols g) (fun c => gx g 0%nat c)))%bool.
(** shear.py:850-856: the grid and a point, turned so that the rows are horizontal. *)
Definition align (o : R * R) (g : grid) (p : R * R) : grid * (R * R) :=
  let a := row_angle g in
  let g1 := turn_grid a o g in
  let p1 := turn a o p in
  if upside_down g1 then (turn_grid 180 o g1, turn 180 o p1) else (g1, p1).
(** shear.py:867-878: an axis starts at [a], has [n] equal steps [h] and is continued with [w] such steps on both sides, which is what the
    odd reflection of numpy.pad does to an axis of equal steps; the interval in which [v] lies and the position in it, nothing outside. *)
Definition locate (a h : R) (n w : nat) (v : R) : option (Z * R) :=
  let u := (v - a) / h in
  if Rlt_dec u (- INR w) then None
  else if Rlt_dec (INR (n - 1) + INR w) u then None
  else Some (Int_part u, u - IZR (Int_part u)).
(** shear.py:870: numpy.pad with the values at the edge. *)
Definition edge (n : nat) (i : Z) : nat := Z.to_nat (Z.max 0 (Z.min i (Z.of_nat n - 1))).
(** scipy RegularGridInterpolator, method linear. *)
Definition bilinear (m n : nat) (z : field) (i : Z) (s : R) (j : Z) (t : R) : R :=
  (1 - s) * ((1 - t) * z (edge m i) (edge n j) + t * z (edge m i) (edge n (j + 1))) +
  s * ((1 - t) * z (edge m (i + 1)) (edge n j) + t * z (edge m (i + 1)) (edge n (j + 1))).
(** shear.py:836-882 [interpolate] at one point; [fill] outside the padded grid. *)
Definition interpolate (o : R * R) (g : grid) (z : field) (fill : R) (p : R * R) : R :=
  let '(h, q) := align o g p in
  let w := Nat.max (rows g) (cols g) in
  match locate (gy h 0%nat 0%nat) (gy h 1%nat 0%nat - gy h 0%nat 0%nat) (rows g) w (snd q), locate (gx h 0%nat 0%nat) (gx h 0%nat 1%nat - gx h 0%nat 0%nat) (cols g) w (fst q) with
  | Some (i, s), Some (j, t) => bilinear (rows g) (cols g) z i s j t
  | _, _ => fill
  end.

(** ** Separation *)
Definition gtb (x y : R) : bool := if Rlt_dec y x then true else false.
Section Bubble.
(** One row of [n] columns; the x-coordinates are [x1] + column * [dx]. The wind blows along the row, numpy.sum(taux) >= 0, line 441. *)
Variables (n : nat) (dx c mu_b : R) (z : nat -> R).
(** shear.py:405-407: the slope in degrees over two columns. *)
Definition dzx (i : nat) : R :=
  let j := Nat.min i (n - 3) in degrees (atan ((z (j + 2)%nat - z j) / (2 * dx))).
(** shear.py:414-416; the third argument of numpy.logical_and is not an operand. *)
Definition stall0 (i : nat) : bool := (gtb (Rabs (dzx i)) mu_b && gtb 0 (dzx i))%bool.
Definition stall (i : nat) : bool := (stall0 i || (Nat.ltb 0 i && Nat.ltb (S i) n && negb (stall0 i) && stall0 (i - 1)))%bool.
(** shear.py:419, and 422-424: moved by one column, the first one stays as well. *)
Definition bubble0 (i : nat) : bool := (Nat.ltb (S i) n && negb (stall i) && stall (S i))%bool.
Definition bubble (i : nat) : bool := (Nat.ltb (S i) n && bubble0 (i - 1))%bool.
Definition bubbles : list nat := filter bubble (seq 0 n).
(** Python's [z[j, i-3]], negative indices count from the end. *)
Definition back3 (i : nat) : R := if Nat.ltb i 3 then z (n + i - 3)%nat else z (i - 3)%nat.
(** shear.py:446-451 *)
Definition brink (i : nat) : R :=
  match filter (fun m => leb 0 (dzx m)) (seq (i + 5) (n - (i + 5))) with
  | [] => z i
  | m :: _ => z i - z m
  end.
(** shear.py:454-460 *)
Definition reattach (h d : R) : R := Rmin (Rmax (3 * h / (2 * c) * (1 + d / c / 4 + (d / c) ^ 2 / 8)) (1 / 10)) 200.
Definition cubic (h d ls base xs : R) : R :=
  (2 * h / ls ^ 3 + d / ls ^ 2) * xs ^ 3 + (- 3 * h / ls ^ 2 - 2 * d / ls) * xs ^ 2 + d * xs + base.
(** shear.py:462 *)
Definition i_max (i : nat) (ls : R) : nat := Nat.min (i + Z.to_nat (Int_part (ls / dx)) + 1) (n - 1).
(** shear.py:435-472 for one bubble: [zsep_new] and [zsep]. *)
Definition add_bubble (s : (nat -> R) * (nat -> R)) (i : nat) : (nat -> R) * (nat -> R) :=
  let d := (z i - back3 i) / (3 * dx) in
  let ls := reattach (brink i) d in
  let new := fun m => if (Nat.leb i m && Nat.ltb m (i_max i ls))%bool then cubic (brink i) d ls (z i) (INR m * dx - INR i * dx) else fst s m in
  (new, fun m => Rmax (Rmax (z m) (snd s m)) (new m)).
(** shear.py:399-400 and 518-519: both surfaces start at zero; the result is raised to the bed. *)
Definition separation (m : nat) : R :=
  let zsep := snd (fold_left add_bubble bubbles (fun _ => 0, fun _ => 0)) in
  if Rlt_dec (zsep m) (z m) then z m else zsep m.
End Bubble.

(** ** Perturbation by the bed *)
(** Complex numbers. *)
Definition complex := (R * R)%type.
Definition cadd (a b : complex) : complex := (fst a + fst b, snd a + snd b).
Definition cmul (a b : complex) : complex := (fst a * fst b - snd a * snd b, fst a * snd b + snd a * fst b).
Definition real (r : R) : complex := (r, 0).
Definition cdiv (a b : complex) : complex :=
  let d := fst b * fst b + snd b * snd b in
  ((fst a * fst b + snd a * snd b) / d, (snd a * fst b - fst a * snd b) / d).
Definition cis (t : R) : complex := (cos t, sin t).
Fixpoint ctotal (n : nat) (f : nat -> complex) : complex := match n with O => (0, 0) | S m => cadd (ctotal m f) (f m) end.
(** numpy.fft.fftfreq(n, d)[i] *)
Definition fftfreq (n : nat) (d : R) (i : nat) : R :=
  (if Nat.leb i ((n - 1) / 2) then INR i else INR i - INR n) / (INR n * d).
(** shear.py:547-548: the wave numbers, [i] the index in the spectrum of [n] values. *)
Definition wave (n : nat) (d : R) (i : nat) : R := 2 * PI * fftfreq (n + 1) d (i + 1).
(** numpy.fft.fft2, at row [a] and column [b] of the spectrum, and the real part of ifft2. *)
Definition phase (m n r c a b : nat) : R := 2 * PI * (INR a * INR r / INR m + INR b * INR c / INR n).
Definition fft2 (m n : nat) (z : field) (a b : nat) : complex :=
  ctotal m (fun r => ctotal n (fun c => cmul (real (z r c)) (cis (- phase m n r c a b)))).
Definition ifft2_real (m n : nat) (s : nat -> nat -> complex) (r c : nat) : R :=
  fst (ctotal m (fun a => ctotal n (fun b => cmul (s a b) (cis (phase m n r c a b))))) / (INR m * INR n).
(** shear.py:638-679 [filter_highfrequenies]: the factor for one wave number, with nfilter = (1, 2). *)
Definition filter_x (dx kx : R) : R :=
  1 / (1 + exp (- (2 * PI / dx / Rabs kx + 1 - 2) / (1 / ln (1 / (1 / 100) - 1)))).
Definition filter_y (dy ky : R) : R :=
  1 / (1 + exp (- (2 * PI / dy / Rabs ky + 1 - 2) / (- 2 / ln (1 / (99 / 100) - 1)))).
(** shear.py:566-575: heights of the inner and middle layer and the velocity at the inner layer; [len] is L / 4. *)
Fixpoint inner_layer (steps : nat) (z0 len l : R) : R :=
  match steps with O => l | S m => inner_layer m z0 len (2 * (41 / 100) ^ 2 * len / ln (l / z0)) end.
Fixpoint middle_layer (steps : nat) (z0 len h : R) : R :=
  match steps with O => h | S m => middle_layer m z0 len (len / sqrt (ln (h / z0))) end.
Section Perturbation.
Variables (kv : R -> complex -> complex) (dx dy L l0 z0 : R).
Definition l : R := inner_layer 5 z0 (L / 4) l0.
Definition hm : R := middle_layer 5 z0 (L / 4) 1.
Definition ul : R := ln (l / z0) / ln (hm / z0).
(** shear.py:579: the principal square root of an imaginary number. *)
Definition sqrt_imaginary (a : R) : complex := if Rle_dec 0 a then (sqrt (a / 2), sqrt (a / 2)) else (sqrt (- a / 2), - sqrt (- a / 2)).
Definition sigma (kx : R) : complex := sqrt_imaginary (L / 4 * kx * z0 / l).
Definition wave_size (kx ky : R) : R := sqrt (kx ^ 2 + ky ^ 2).
(** shear.py:586-592: what the spectrum of the bed is multiplied with. *)
Definition transfer_x (kx ky : R) : complex :=
  cmul (real (filter_x dx kx * filter_y dy ky * (kx ^ 2 / wave_size kx ky * 2 / ul ^ 2)))
    (cadd (real (- 1)) (cmul (real (2 * ln (l / z0) + wave_size kx ky ^ 2 / kx ^ 2))
       (cdiv (cmul (sigma kx) (kv 1 (cmul (real 2) (sigma kx)))) (kv 0 (cmul (real 2) (sigma kx)))))).
Definition transfer_y (kx ky : R) : complex :=
  cmul (real (filter_x dx kx * filter_y dy ky * (kx * ky / wave_size kx ky * 2 / ul ^ 2 * 2 * sqrt 2)))
    (cmul (sigma kx) (kv 1 (cmul (real (2 * sqrt 2)) (sigma kx)))).
(** shear.py:524-596 [compute_shear] for a bed [z] of [m] rows and [n] columns. *)
Definition perturb (t : R -> R -> complex) (m n : nat) (z : field) : field :=
  ifft2_real m n (fun a b => cmul (fft2 m n z a b) (t (wave n dx b) (wave m dy a))).
Definition compute_shear (u0 : R) (m n : nat) (z : field) : field * field :=
  if Req_EM_T u0 0 then (fun _ _ => 0, fun _ _ => 0)
  else (perturb transfer_x m n z, perturb transfer_y m n z).
End Perturbation.

(** ** The stress *)
(** shear.py:700-730 [add_shear], one cell. *)
Definition add_shear (t d : R * R) : R * R :=
  let m := sqrt (fst t ^ 2 + snd t ^ 2) in
  if Req_EM_T m 0 then t else (m * (fst t / m + fst d), m * (snd t / m + snd d)).
(** shear.py:238 *)
Definition not_backward (t : R * R) : R * R := (Rmax (fst t) 0, snd t).
(** shear.py:599-618 [separation_shear], one cell. *)
Definition sheltered (h : R) : R := Rmin (Rmax (1 - 1 / (2 / 10 * (5 / 10)) * h) 0) 1.
Definition separation_shear (h : R) (t : R * R) : R * R := (fst t * sheltered h, snd t * sheltered h).
(** Parameters of a call: those of the constructor and those of the separation. *)
Record params := { buffer : R; cdx : R; cdy : R; len : R; inner : R; rough : R; process_separation : bool; c_b : R; mub : R }.
(** shear.py:197: the bed on the computational grid, turned to the wind. *)
Definition bed (p : params) (g : grid) (z : field) (udir : R) : field :=
  let u_angle := 270 - udir in
  let o := centre g in
  let gc := turn_grid (- u_angle) o (computational (buffer p) (cdx p) (cdy p) g udir) in
  fun r c => interpolate o g z 0 (place gc r c).
(** shear.py:226-229: with separation the surface above the bed. *)
Definition surface (p : params) (n : nat) (z : field) : field :=
  fun r c => if process_separation p then Rmax (z r c) (separation n (cdx p) (c_b p) (mub p) (z r) c) else z r c.
(** shear.py:200-257 in a cell of the computational grid: the stress, turned back. [dt] is the perturbation, [h] the height of the bubble. *)
Definition cell_stress (p : params) (udir : R) (t0 dt : R * R) (h : R) : R * R :=
  let u_angle := 270 - udir in
  let t := not_backward (add_shear (turn u_angle (0, 0) t0) dt) in
  turn (- u_angle) (0, 0) (if process_separation p then separation_shear h t else t).
(** shear.py:145-296 [__call__]: the stress and the height of the bubble at the points of the input grid. *)
Definition call (kv : R -> complex -> complex) (p : params) (g : grid) (z : field) (u0 udir : R) (t0 : R * R) (r c : nat) : R * R * R :=
  let o := centre g in
  let gc := computational (buffer p) (cdx p) (cdy p) g udir in
  let zc := bed p g z udir in
  let zs := surface p (cols gc) zc in
  let '(dtx, dty) := compute_shear kv (cdx p) (cdy p) (len p) (inner p) (rough p) u0 (rows gc) (cols gc) zs in
  let stress r c := cell_stress p udir t0 (dtx r c, dty r c) (zs r c - zc r c) in
  let turned := turn_grid (- (270 - udir)) o gc in
  (interpolate o turned (fun r c => fst (stress r c)) (fst t0) (place g r c),
   interpolate o turned (fun r c => snd (stress r c)) (snd t0) (place g r c),
   if process_separation p then interpolate o turned (fun r c => zs r c - zc r c) 0 (place g r c) else 0).
