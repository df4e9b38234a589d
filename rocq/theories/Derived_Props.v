(** Parameters filled in from others, names of files and lists: properties C152 to C155. *)
From Coq Require Import QArith List.
From Verif Require Import Base Config_Model Config_Spec Config_Proofs Config_Cases Derived_Spec Derived_Proofs Derived_Words Derived_Cases.
Import ListNotations.

(** C152. A parameter that is given is kept. *)
Theorem C152_kept : forall files nc d ls pf ld p k v, read_configfile files nc d (Some ls) pf ld = Ok p -> In k filled_in ->
  given files pf d ld ls k v -> is_set v -> dget k p = Some v.
Proof. exact c152_kept. Qed.
Print Assumptions C152_kept.
Example C152_kept_case : exists p, read_d d_lines2 = Ok p /\
  given no_files true d_defaults true d_lines2 (txt "nsavetimes") (VInt 12) /\ is_set (VInt 12) /\
  dget (txt "nsavetimes") p = Some (VInt 12) /\ dget (txt "h") p = Some (VInt 2) /\
  dget (txt "process_fences") p = Some (VBool true) /\ dget (txt "output_file") p = Some (VStr (txt "run.nc")).
Proof. exact c152_kept_case. Qed.

(** Without output file the name is derived from that of the configuration file. *)
Theorem C152_output : forall files nc d ls pf ld p v, read_configfile files nc d (Some ls) pf ld = Ok p ->
  given files pf d ld ls (txt "output_file") v -> unset v -> dget (txt "output_file") p = Some (VStr nc).
Proof. exact c152_output. Qed.
Print Assumptions C152_output.
Example C152_output_case : exists p, read_d d_lines = Ok p /\
  given no_files true d_defaults true d_lines (txt "nsavetimes") VNone /\
  given no_files true d_defaults true d_lines (txt "dzb_interval") (VInt 86400) /\
  given no_files true d_defaults true d_lines (txt "dt") (VFloat (-70#10)) /\
  dget (txt "nsavetimes") p = Some (VInt (-12342)) /\ integer_part (inject_Z 86400 / (-70#10)) (-12342) /\
  given no_files true d_defaults true d_lines (txt "h") VNone /\
  given no_files true d_defaults true d_lines (txt "z") (VInt 4) /\ dget (txt "h") p = Some (VInt 4) /\
  given no_files true d_defaults true d_lines (txt "process_fences") (VInt 0) /\
  dget (txt "process_fences") p = Some (VBool false) /\
  given no_files true d_defaults true d_lines (txt "grain_dist") (VList [VInt 1]) /\
  given no_files true d_defaults true d_lines (txt "grain_size") (VFloat (5#10)) /\
  dget (txt "grain_size") p = Some (VList [VFloat (5#10)]) /\
  dget (txt "output_file") p = Some (VStr (txt "a.nc")).
Proof. exact c152_case. Qed.

(** Without roughness height it is the height of the wind measurements. *)
Theorem C152_h : forall files nc d ls pf ld p v z, read_configfile files nc d (Some ls) pf ld = Ok p ->
  given files pf d ld ls (txt "h") v -> given files pf d ld ls (txt "z") z -> unset v ->
  dget (txt "h") p = Some z.
Proof. exact c152_h. Qed.
Print Assumptions C152_h.
Example C152_h_case : exists p, read_d d_lines = Ok p /\
  given no_files true d_defaults true d_lines (txt "nsavetimes") VNone /\
  given no_files true d_defaults true d_lines (txt "dzb_interval") (VInt 86400) /\
  given no_files true d_defaults true d_lines (txt "dt") (VFloat (-70#10)) /\
  dget (txt "nsavetimes") p = Some (VInt (-12342)) /\ integer_part (inject_Z 86400 / (-70#10)) (-12342) /\
  given no_files true d_defaults true d_lines (txt "h") VNone /\
  given no_files true d_defaults true d_lines (txt "z") (VInt 4) /\ dget (txt "h") p = Some (VInt 4) /\
  given no_files true d_defaults true d_lines (txt "process_fences") (VInt 0) /\
  dget (txt "process_fences") p = Some (VBool false) /\
  given no_files true d_defaults true d_lines (txt "grain_dist") (VList [VInt 1]) /\
  given no_files true d_defaults true d_lines (txt "grain_size") (VFloat (5#10)) /\
  dget (txt "grain_size") p = Some (VList [VFloat (5#10)]) /\
  dget (txt "output_file") p = Some (VStr (txt "a.nc")).
Proof. exact c152_case. Qed.

(** Fences that are not set are off. *)
Theorem C152_fences : forall files nc d ls pf ld p v, read_configfile files nc d (Some ls) pf ld = Ok p ->
  given files pf d ld ls (txt "process_fences") v -> unset v -> dget (txt "process_fences") p = Some (VBool false).
Proof. exact c152_fences. Qed.
Print Assumptions C152_fences.
Example C152_fences_case : exists p, read_d d_lines = Ok p /\
  given no_files true d_defaults true d_lines (txt "nsavetimes") VNone /\
  given no_files true d_defaults true d_lines (txt "dzb_interval") (VInt 86400) /\
  given no_files true d_defaults true d_lines (txt "dt") (VFloat (-70#10)) /\
  dget (txt "nsavetimes") p = Some (VInt (-12342)) /\ integer_part (inject_Z 86400 / (-70#10)) (-12342) /\
  given no_files true d_defaults true d_lines (txt "h") VNone /\
  given no_files true d_defaults true d_lines (txt "z") (VInt 4) /\ dget (txt "h") p = Some (VInt 4) /\
  given no_files true d_defaults true d_lines (txt "process_fences") (VInt 0) /\
  dget (txt "process_fences") p = Some (VBool false) /\
  given no_files true d_defaults true d_lines (txt "grain_dist") (VList [VInt 1]) /\
  given no_files true d_defaults true d_lines (txt "grain_size") (VFloat (5#10)) /\
  dget (txt "grain_size") p = Some (VList [VFloat (5#10)]) /\
  dget (txt "output_file") p = Some (VStr (txt "a.nc")).
Proof. exact c152_case. Qed.

(** Without number of saved times it is the whole number of time steps in the interval for vegetation, rounded towards zero; a time step of zero is not accepted. *)
Theorem C152_nsavetimes : forall files nc d ls pf ld p v i t x y, read_configfile files nc d (Some ls) pf ld = Ok p ->
  given files pf d ld ls (txt "nsavetimes") v -> unset v ->
  given files pf d ld ls (txt "dzb_interval") i -> number i x ->
  given files pf d ld ls (txt "dt") t -> number t y ->
  ~ (y == 0)%Q /\ exists n, integer_part (x / y) n /\ dget (txt "nsavetimes") p = Some (VInt n).
Proof. exact c152_nsavetimes. Qed.
Print Assumptions C152_nsavetimes.
Example C152_nsavetimes_case : exists p, read_d d_lines = Ok p /\
  given no_files true d_defaults true d_lines (txt "nsavetimes") VNone /\
  given no_files true d_defaults true d_lines (txt "dzb_interval") (VInt 86400) /\
  given no_files true d_defaults true d_lines (txt "dt") (VFloat (-70#10)) /\
  dget (txt "nsavetimes") p = Some (VInt (-12342)) /\ integer_part (inject_Z 86400 / (-70#10)) (-12342) /\
  given no_files true d_defaults true d_lines (txt "h") VNone /\
  given no_files true d_defaults true d_lines (txt "z") (VInt 4) /\ dget (txt "h") p = Some (VInt 4) /\
  given no_files true d_defaults true d_lines (txt "process_fences") (VInt 0) /\
  dget (txt "process_fences") p = Some (VBool false) /\
  given no_files true d_defaults true d_lines (txt "grain_dist") (VList [VInt 1]) /\
  given no_files true d_defaults true d_lines (txt "grain_size") (VFloat (5#10)) /\
  dget (txt "grain_size") p = Some (VList [VFloat (5#10)]) /\
  dget (txt "output_file") p = Some (VStr (txt "a.nc")).
Proof. exact c152_case. Qed.

(** Grain sizes and their distribution become arrays. *)
Theorem C152_grain : forall files nc d ls pf ld p w k v, read_configfile files nc d (Some ls) pf ld = Ok p ->
  given files pf d ld ls (txt "grain_dist") w -> k = txt "grain_dist" \/ k = txt "grain_size" ->
  given files pf d ld ls k v -> exists l, array_of v l /\ dget k p = Some l.
Proof. exact c152_grain. Qed.
Print Assumptions C152_grain.
Example C152_grain_case : exists p, read_d d_lines = Ok p /\
  given no_files true d_defaults true d_lines (txt "nsavetimes") VNone /\
  given no_files true d_defaults true d_lines (txt "dzb_interval") (VInt 86400) /\
  given no_files true d_defaults true d_lines (txt "dt") (VFloat (-70#10)) /\
  dget (txt "nsavetimes") p = Some (VInt (-12342)) /\ integer_part (inject_Z 86400 / (-70#10)) (-12342) /\
  given no_files true d_defaults true d_lines (txt "h") VNone /\
  given no_files true d_defaults true d_lines (txt "z") (VInt 4) /\ dget (txt "h") p = Some (VInt 4) /\
  given no_files true d_defaults true d_lines (txt "process_fences") (VInt 0) /\
  dget (txt "process_fences") p = Some (VBool false) /\
  given no_files true d_defaults true d_lines (txt "grain_dist") (VList [VInt 1]) /\
  given no_files true d_defaults true d_lines (txt "grain_size") (VFloat (5#10)) /\
  dget (txt "grain_size") p = Some (VList [VFloat (5#10)]) /\
  dget (txt "output_file") p = Some (VStr (txt "a.nc")).
Proof. exact c152_case. Qed.

(** A list of several values or a file is not accepted for these parameters. *)
Theorem C152_ambiguous : forall files nc d ls pf ld k v, In k filled_in -> given files pf d ld ls k v -> ambiguous v ->
  forall p, read_configfile files nc d (Some ls) pf ld <> Ok p.
Proof. exact c152_ambiguous. Qed.
Print Assumptions C152_ambiguous.
Example C152_ambiguous_case : In (txt "h") filled_in /\ ambiguous (VList [VInt 1; VInt 2]) /\
  given no_files true d_defaults true [txt "h = 1 2"] (txt "h") (VList [VInt 1; VInt 2]) /\
  read_d [txt "h = 1 2"] = Raise ValueError.
Proof. exact c152_ambiguous_case. Qed.

(** C153. The name of a data file is replaced by the numbers in it. *)
Theorem C153_file : forall files s m, name_like s -> files s = Some (Some m) -> parse_value files s true false = Ok (VFile m).
Proof. exact c153_file. Qed.
Print Assumptions C153_file.
Example C153_file_case : name_like (txt "wind.txt") /\ two_files (txt "wind.txt") = Some (Some [[0; 5; 270]%Q]) /\
  name_like (txt "notes.txt") /\ two_files (txt "notes.txt") = Some None /\
  name_like (txt "other.txt") /\ two_files (txt "other.txt") = None.
Proof. exact c153_case. Qed.

(** The name of a file that does not contain numbers stays as it is. *)
Theorem C153_unreadable : forall files s, name_like s -> files s = Some None -> parse_value files s true false = Ok (VStr s).
Proof. exact c153_unreadable. Qed.
Print Assumptions C153_unreadable.
Example C153_unreadable_case : name_like (txt "wind.txt") /\ two_files (txt "wind.txt") = Some (Some [[0; 5; 270]%Q]) /\
  name_like (txt "notes.txt") /\ two_files (txt "notes.txt") = Some None /\
  name_like (txt "other.txt") /\ two_files (txt "other.txt") = None.
Proof. exact c153_case. Qed.

(** So does the name of a file that does not exist. *)
Theorem C153_missing : forall files s, name_like s -> files s = None -> parse_value files s true false = Ok (VStr s).
Proof. exact c153_missing. Qed.
Print Assumptions C153_missing.
Example C153_missing_case : name_like (txt "wind.txt") /\ two_files (txt "wind.txt") = Some (Some [[0; 5; 270]%Q]) /\
  name_like (txt "notes.txt") /\ two_files (txt "notes.txt") = Some None /\
  name_like (txt "other.txt") /\ two_files (txt "other.txt") = None.
Proof. exact c153_case. Qed.

(** C154. When files are not to be parsed, values do not depend on the files there are: false, for lists. *)
Theorem C154_off_refuted : exists raw f1 f2, ~ same_text f1 f2 raw.
Proof. exact c154_list. Qed.
Print Assumptions C154_off_refuted.

(** It holds for single values. *)
Theorem C154_single_partial : forall f1 f2 raw, has_char " " (clean raw) = false -> same_text f1 f2 raw.
Proof. exact c154_single. Qed.
Print Assumptions C154_single_partial.
Example C154_single_partial_case : has_char " " (clean (txt " wind.txt % of 2010")) = false /\
  parse_value two_files (txt " wind.txt % of 2010") false false = Ok (VStr (txt "wind.txt")).
Proof. exact c154_case. Qed.

(** C155. The number of blanks between the items of a list does not matter: false. *)
Theorem C155_blanks_refuted : exists w1 w2 n, word w1 /\ word w2 /\
  parse_value no_files (items w1 [(n, w2)]) true false <> parse_value no_files (items w1 [(0, w2)]) true false.
Proof. exact c155_blanks. Qed.
Print Assumptions C155_blanks_refuted.

(** Each blank too many adds the item None; without them every item has the value it has on its own. *)
Theorem C155_gaps_partial : forall files pf w v l lv, files [] = None -> l <> [] -> word w -> Forall (fun x => word (snd x)) l ->
  parse_value files w true false = Ok v ->
  Forall2 (fun x y => fst y = fst x /\ parse_value files (snd x) true false = Ok (snd y)) l lv ->
  parse_value files (items w l) pf false = Ok (VList (with_gaps v lv)).
Proof. exact c155_gaps. Qed.
Print Assumptions C155_gaps_partial.
Example C155_gaps_partial_case : items (txt "0.2") [(2, txt "bed.txt")] = txt "0.2   bed.txt" /\
  parse_value no_files (txt "0.2   bed.txt") true false =
  Ok (VList (with_gaps (VFloat (2#10)) [(2, VStr (txt "bed.txt"))])) /\
  with_gaps (VFloat (2#10)) [(2, VStr (txt "bed.txt"))] = [VFloat (2#10); VNone; VNone; VStr (txt "bed.txt")].
Proof. exact c155_case. Qed.
