(** Model of the output file: aeolis/netcdf.py. Definitions only.

    The netCDF4 library itself is not modelled beyond this: a file has named dimensions and named
    variables with a list of dimensions; creating a variable whose name is taken raises RuntimeError;
    one with an unknown dimension, KeyError; variables of type float32 store the nearest number with 24
    significant binary digits. Attributes other than units, bounds are left out, as are the fixed
    global attributes (95-141). *)
From Verif Require Import Base State_Model Config_Model.

(** ** The variables and dimensions of the file, 52-301 *)

(** A variable: name, dimensions, attributes units and bounds. *)
Record ncvar := { vname : text; vdims : list text; vunits : option text; vbounds : option text }.

(** 87-93, in that order; [None] is an unlimited dimension (size 0 at creation). *)
Definition nc_dims (p : dict nat) : result (dict (option nat)) :=
  match dget (txt "nx") p, dget (txt "ny") p, dget (txt "nlayers") p, dget (txt "nfractions") p with
  | Some nx, Some ny, Some nl, Some nf =>
      Ok [(txt "s", Some (nx + 1)); (txt "n", Some (ny + 1)); (txt "time", None); (txt "nv", Some 2);
          (txt "nv2", Some 4); (txt "layers", Some nl); (txt "fractions", Some nf)]
  | _, _, _, _ => Raise KeyError
  end.

(** createVariable of the library *)
Definition create (dims : dict (option nat)) (v : ncvar) (f : list ncvar) : result (list ncvar) :=
  if existsb (fun w => text_eqb (vname w) (vname v)) f then Raise RuntimeError
  else if forallb (fun d => dmem d dims) (vdims v) then Ok (f ++ [v])
  else Raise KeyError.
Fixpoint create_all (dims : dict (option nat)) (vs : list ncvar) (f : list ncvar) : result (list ncvar) :=
  match vs with
  | [] => Ok f
  | v :: vs' => let* f' := create dims v f in create_all dims vs' f'
  end.

(** 147-236: the coordinates and their bounds. *)
Definition fixed (name : string) (ds : list string) (units : string) (bounds : option string) : ncvar :=
  {| vname := txt name; vdims := map txt ds; vunits := Some (txt units); vbounds := option_map txt bounds |}.
Definition fixed_vars (refdate : text) : list ncvar :=
  [fixed "s" ["s"] "1" None; fixed "n" ["n"] "1" None;                                   (* 147, 153 *)
    fixed "x" ["n"; "s"] "m" (Some "x_bounds");                                           (* 159 *)
    fixed "y" ["n"; "s"] "m" (Some "y_bounds");                                           (* 169 *)
    fixed "layers" ["layers"] "1" None; fixed "fractions" ["fractions"] "m" None;         (* 179, 185 *)
    fixed "lat" ["n"; "s"] "degrees_north" (Some "lat_bounds");                           (* 191 *)
    fixed "lon" ["n"; "s"] "degrees_east" (Some "lon_bounds");                            (* 200 *)
    {| vname := txt "time"; vdims := [txt "time"]; vunits := Some (txt "seconds since " ++ refdate)%list;
       vbounds := Some (txt "time_bounds") |};                                            (* 209 *)
    fixed "x_bounds" ["s"; "n"; "nv"] "m" None;                                           (* 218 *)
    fixed "y_bounds" ["s"; "n"; "nv"] "m" None;                                           (* 222 *)
    fixed "lat_bounds" ["s"; "n"; "nv2"] "degrees_north" None;                            (* 226 *)
    fixed "lon_bounds" ["s"; "n"; "nv2"] "degrees_east" None;                             (* 230 *)
    {| vname := txt "time_bounds"; vdims := [txt "time"; txt "nv"];
       vunits := Some (txt "seconds since " ++ refdate)%list; vbounds := None |} ]%string.     (* 234 *)

(** ** parse_metadata, 415-449 *)

(** The rest of a line after the closing quote and comma: white space, a hash, white space, an opening
    bracket, then everything up to the last closing bracket. [None]: no match. *)
Fixpoint upto_last (c : ascii) (t : text) : option text :=
  match t with
  | [] => None
  | a :: t' => match upto_last c t' with
               | Some u => Some (a :: u)
               | None => if Ascii.eqb a c then Some [] else None
               end
  end.
Definition unit_part (t : text) : option text :=
  match drop_while is_space t with
  | "#"%char :: t1 => match drop_while is_space t1 with
                      | "["%char :: t2 => upto_last "]"%char t2
                      | _ => None
                      end
  | _ => None
  end.
(** The greedy group in quotes: the longest name first. *)
Fixpoint name_part (t : text) : option (text * text) :=
  match t with
  | [] => None
  | a :: t' => match name_part t' with
               | Some (n, u) => Some (a :: n, u)
               | None =>
                   match t with
                   | "'"%char :: ","%char :: t2 => option_map (fun u => ([], u)) (unit_part t2)
                   | _ => None
                   end
               end
  end.
(** 440: re.match of the pattern; the groups are the name and the unit. *)
Definition match_line (t : text) : option (text * text) :=
  match drop_while is_space t with
  | "'"%char :: t' => name_part t'
  | _ => None
  end.

(** 435-449 for the lines of constants.py; [None]: the unit is not known. *)
Definition parse_metadata (lines : list text) (vars : list text) : dict (option text) :=
  fold_left (fun meta line =>
      match match_line line with
      | Some (v, u) =>
          if dmem v meta
          then dset v (Some (if text_eqb u (txt "-") then txt "1" else u)) meta
          else meta
      | None => meta
      end) lines (fold_left (fun d v => dset v None d) vars []).

(** 247-249: ['time'] and the names of the dimensions without their first letter, x and y renamed. *)
Definition file_dims (dims : list text) : list text :=
  map (fun d => if text_eqb d (txt "y") then txt "n" else d)
    (map (fun d => if text_eqb d (txt "x") then txt "s" else d) (txt "time" :: map (@tl ascii) dims)).

(** 252-255 *)
Definition file_name (var0 : text) (ext : option text) : text :=
  match ext with None => var0 | Some e => var0 ++ txt "_" ++ e end.

(** 239-273, one requested variable: [known] are the keys of [s]. The attribute units is set only for a
    unit that is neither None nor empty. *)
Definition requested (known : list text) (dimensions : dict (list text)) (meta : dict (option text))
    (v : text * list (option text)) : list ncvar :=
  if mem (fst v) known then
    match dget (fst v) dimensions with
    | None => []
    | Some ds =>
        map (fun ext => {| vname := file_name (fst v) ext; vdims := file_dims ds;
                           vunits := match dget (fst v) meta with
                                     | Some (Some (a :: u)) => Some (a :: u)
                                     | _ => None
                                     end;
                           vbounds := None |}) (snd v)
    end
  else [].

(** 52-301. The values stored (289-301) are not modelled; the shapes of s['x'] and s['y'] are those of
    their file variables (property C09). *)
Definition initialize (lines : list text) (refdate : text) (p : dict nat) (known : list text)
    (dimensions : dict (list text)) (outvars : dict (list (option text)))
    : result (dict (option nat) * list ncvar) :=
  let* dims := nc_dims p in
  let* f1 := create_all dims (fixed_vars refdate) [] in
  let meta := parse_metadata lines (dkeys outvars) in
  let* f2 := create_all dims (flat_map (requested known dimensions meta) outvars) f1 in
  let* f3 := create dims {| vname := txt "crs"; vdims := []; vunits := None; vbounds := None |} f2 in
  Ok (dims, f3).

(** ** Time axis, 344-376 *)

(** A whole number of seconds stored as float32: rounded to 24 significant binary digits, half to even
    (whole numbers are all that is needed: time is counted in seconds). *)
Definition half_even_div (a b : Z) : Z :=
  let q := (a / b)%Z in
  let r := (a mod b)%Z in
  match (2 * r ?= b)%Z with
  | Lt => q
  | Gt => (q + 1)%Z
  | Eq => if Z.even q then q else (q + 1)%Z
  end.
Definition float32 (z : Z) : Z :=
  let e := (Z.log2 (Z.abs z) - 23)%Z in
  if (e <=? 0)%Z then z else (half_even_div z (2 ^ e) * 2 ^ e)%Z.

(** The variables time (float64: whole numbers are exact) and time_bounds (float32). *)
Record axis := { times : list Z; time_bounds : list (Z * Z) }.
(** 349-350 and 374-376 *)
Definition append_time (t : Z) (a : axis) : axis :=
  let ts := times a ++ [t] in
  let i := length ts - 1 in
  {| times := ts;
     time_bounds := time_bounds a ++ [(match i with O => 0%Z | S j => float32 (nth j ts 0%Z) end, float32 t)] |}.
Definition run_axis (ts : list Z) : axis := fold_left (fun a t => append_time t a) ts {| times := []; time_bounds := [] |}.

(** ** dump, 379-412, and the use of its result as bedcomp_file *)
Section Dump.
  Context {A : Type}.

  (** An array in row-major order. *)
  Record array := { ashape : list nat; aflat : list A }.

  (** The time slices of one variable; Python's indices, negative ones from the end. *)
  Definition slice (l : list array) (ix : Z) : result array :=
    let n := Z.of_nat (length l) in
    let i := if (ix <? 0)%Z then (ix + n)%Z else ix in
    if ((i <? 0) || (n <=? i))%Z%bool then Raise IndexError
    else match nth_error l (Z.to_nat i) with Some m => Ok m | None => Raise IndexError end.

  (** Rows of [n] values, until none are left ([fuel]: number of values). *)
  Fixpoint rows (fuel n : nat) (l : list A) : list (list A) :=
    match fuel, l with
    | _, [] => []
    | O, _ => []
    | S f, _ => firstn n l :: rows f n (skipn n l)
    end.

  (** 412: reshape((-1, m.shape[1])) and savetxt, one line for each row. *)
  Definition dump_rows (m : array) : result (list (list A)) :=
    match ashape m with
    | _ :: n :: _ =>
        if (n =? 0) then Raise ValueError else Ok (rows (length (aflat m)) n (aflat m))
    | _ => Raise IndexError
    end.
  Definition dump (file : dict (list array)) (var : text) (ix : Z) : result (list (list A)) :=
    match dget var file with
    | None => Raise KeyError
    | Some l => let* m := slice l ix in dump_rows m
    end.

  (** inout.py:289 [np.loadtxt] and bed.py:104 [reshape(s['mass'].shape)]. *)
  Definition load_as (shape : list nat) (file : list (list A)) : result array :=
    let l := concat file in
    if (length l =? fold_right Nat.mul 1 shape) then Ok {| ashape := shape; aflat := l |}
    else Raise ValueError.
End Dump.
Arguments array : clear implicits.
