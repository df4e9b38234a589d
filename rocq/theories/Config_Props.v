(** Properties C01-C05, C49, C51, C52: configuration files. *)
From Verif Require Import Base Config_Model Config_Spec Config_Proofs Config_Cases Config_Lines.

(** C01. The last assignment wins. *)
Theorem C01_last_assignment_wins : forall files ncname defaults ls pf load_defaults p k val,
  read_configfile files ncname defaults (Some ls) pf load_defaults = Ok p ->
  ~ In k derived_parameters -> last_assignment ls k val ->
  exists v, parse_value files val pf false = Ok v /\ dget k p = Some v.
Proof. exact config_last_assignment. Qed.
Print Assumptions C01_last_assignment_wins.
Example C01_last_assignment_wins_ex :
  (exists p, read_configfile no_files (txt "a.nc") ex_defaults (Some ex_lines) true true = Ok p /\
     dget (txt "CFL") p = Some (VFloat (50#100))) /\
  ~ In (txt "CFL") derived_parameters /\ last_assignment ex_lines (txt "CFL") (txt " 0.50 % less").
Proof. exact ex_last_assignment. Qed.

Theorem C01_default_when_never_assigned : forall files ncname defaults ls pf load_defaults p k,
  read_configfile files ncname defaults (Some ls) pf load_defaults = Ok p ->
  ~ In k derived_parameters -> never_assigned ls k ->
  dget k p = if load_defaults then dget k defaults else None.
Proof. exact config_never_assigned. Qed.
Print Assumptions C01_default_when_never_assigned.
Example C01_default_when_never_assigned_ex :
  (exists p, read_configfile no_files (txt "a.nc") ex_defaults (Some ex_lines) true true = Ok p /\
     dget (txt "dt") p = Some (VInt 60)) /\
  never_assigned ex_lines (txt "dt").
Proof. exact ex_never_assigned. Qed.

(** Each parameter falls under exactly one of the two theorems above. *)
Theorem C01_assigned_or_not : forall ls k,
  never_assigned ls k \/ exists val, last_assignment ls k val.
Proof. exact assigned_or_not. Qed.
Print Assumptions C01_assigned_or_not.
Example C01_assigned_or_not_ex : last_assignment ex_lines (txt "CFL") (txt " 0.50 % less").
Proof. exact (proj2 (proj2 ex_last_assignment)). Qed.

(** Lines that assign nothing (comments, text without equal sign) have no effect. *)
Theorem C01_irrelevant_lines : forall files ncname defaults ls1 ls2 extra pf load_defaults,
  (forall k v, ~ assigns extra k v) ->
  read_configfile files ncname defaults (Some (ls1 ++ extra :: ls2)) pf load_defaults =
  read_configfile files ncname defaults (Some (ls1 ++ ls2)) pf load_defaults.
Proof. exact config_irrelevant_line. Qed.
Print Assumptions C01_irrelevant_lines.
Example C01_irrelevant_lines_ex : forall k v, ~ assigns (txt "  % CFL = 3") k v.
Proof. exact ex_comment_line. Qed.

(** Text after a comment sign does not affect a value. *)
Theorem C01_inline_comment : forall files (val comment : text) pf fl,
  ~ In "%"%char val ->
  parse_value files (val ++ "%"%char :: comment) pf fl = parse_value files val pf fl.
Proof. exact parse_comment. Qed.
Print Assumptions C01_inline_comment.
Example C01_inline_comment_ex :
  parse_value no_files (txt " 12 % seconds % really") true false = Ok (VInt 12).
Proof. exact ex_inline_comment. Qed.

(** Post-processed parameters: an output file that is given is kept, otherwise the name is derived. *)
Theorem C01_output_file : forall files ncname defaults ls pf load_defaults p p1 v,
  read_configfile files ncname defaults (Some ls) pf load_defaults = Ok p ->
  read_lines files pf (if load_defaults then defaults else []) ls = Ok p1 ->
  dget (txt "output_file") p1 = Some v ->
  (v = VNone -> dget (txt "output_file") p = Some (VStr ncname)) /\
  (forall s, s <> [] -> v = VStr s -> dget (txt "output_file") p = Some (VStr s)).
Proof. exact config_output_file. Qed.
Print Assumptions C01_output_file.
Example C01_output_file_ex :
  exists p, read_configfile no_files (txt "a.nc") ex_defaults (Some ex_lines) true true = Ok p /\
     dget (txt "output_file") p = Some (VStr (txt "a.nc")).
Proof. exact ex_output_file. Qed.

(** C02. Printing and re-reading. *)
Theorem C02_int_roundtrip : forall files pf fill n,
  parse_value files (print_value fill (VInt n)) pf false = Ok (VInt n).
Proof. exact roundtrip_int. Qed.
Print Assumptions C02_int_roundtrip.
Example C02_int_roundtrip_ex :
  parse_value no_files (txt "-1203") true false = Ok (VInt (-1203)) /\
  print_value (txt "<novalue>") (VInt (-1203)) = txt "-1203".
Proof. exact ex_int. Qed.

Theorem C02_bool_roundtrip : forall files pf fill b,
  parse_value files (print_value fill (VBool b)) pf false = Ok (VBool b).
Proof. exact roundtrip_bool. Qed.
Print Assumptions C02_bool_roundtrip.
Example C02_bool_roundtrip_ex : parse_value no_files (txt "F") true false = Ok (VBool false).
Proof. exact ex_bool. Qed.

Theorem C02_list_roundtrip : forall files pf fill v v' vs,
  Forall simple_scalar (v :: v' :: vs) ->
  parse_value files (print_value fill (VList (v :: v' :: vs))) pf false = Ok (VList (v :: v' :: vs)).
Proof. exact roundtrip_list. Qed.
Print Assumptions C02_list_roundtrip.
Example C02_list_roundtrip_ex :
  Forall simple_scalar [VInt 3; VBool true; VInt (-20)] /\
  print_value [] (VList [VInt 3; VBool true; VInt (-20)]) = txt "3 T -20".
Proof. exact ex_list. Qed.

(** None is printed as the fill text. With the empty fill used by the configuration writer it
    survives; with the formatter's default fill it does not. *)
Theorem C02_none_roundtrip_partial : forall files pf, files [] = None ->
  parse_value files (print_value [] VNone) pf false = Ok VNone.
Proof. exact roundtrip_none. Qed.
Print Assumptions C02_none_roundtrip_partial.
Example C02_none_roundtrip_partial_ex : no_files [] = None.
Proof. exact eq_refl. Qed.
Theorem C02_none_default_fill_refuted :
  exists v, parse_value no_files (print_value (txt "<novalue>") v) true false <> Ok v /\ v = VNone.
Proof. exact none_default_fill. Qed.
Print Assumptions C02_none_default_fill_refuted.
(** A one-element list comes back as a scalar. *)
Theorem C02_singleton_list_refuted :
  exists v, parse_value no_files (print_value [] (VList [v])) true false = Ok v.
Proof. exact singleton_list. Qed.
Print Assumptions C02_singleton_list_refuted.

(** C03. Words of text: the full statement fails for words beginning with "None". *)
Theorem C03_text_verbatim_refuted :
  exists s, word s /\ ~ looks_numeric s /\
    ~ In s [txt "T"; txt "F"; txt "True"; txt "False"; txt "None"] /\
    parse_value no_files s true false <> Ok (VStr s).
Proof. exact text_verbatim_fails. Qed.
Print Assumptions C03_text_verbatim_refuted.
(** What is missing from the full statement: words beginning with "None". *)
Theorem C03_text_verbatim_partial : forall files pf s,
  word s -> s <> txt "T" -> s <> txt "F" -> ~ looks_numeric s ->
  (forall r, s <> txt "None" ++ r) -> (pf = true -> files s = None) ->
  parse_value files s pf false = Ok (VStr s).
Proof. exact text_verbatim. Qed.
Print Assumptions C03_text_verbatim_partial.
Example C03_text_verbatim_partial_ex :
  word (txt "kok_2012") /\ ~ looks_numeric (txt "kok_2012") /\ (forall r, txt "kok_2012" <> txt "None" ++ r) /\
  parse_value no_files (txt "kok_2012") true false = Ok (VStr (txt "kok_2012")).
Proof. exact ex_text. Qed.
(** A value containing an equal sign is cut there. *)
Theorem C03_equal_sign_refuted :
  exists line p, read_line no_files true [] line = Ok p /\ line = txt "output_file = run=3.nc" /\
    dget (txt "output_file") p = Some (VStr (txt "run")).
Proof. exact equal_sign_cut. Qed.
Print Assumptions C03_equal_sign_refuted.

(** C04. Parsing can fail: on malformed numbers, and only there. *)
Theorem C04_never_raises_refuted :
  exists val, parse_value no_files val true false = Raise ValueError.
Proof. exact malformed_witness. Qed.
Print Assumptions C04_never_raises_refuted.
Theorem C04_raises_only_on_malformed_number_partial : forall files val pf fl e,
  parse_value files val pf fl = Raise e ->
  e = ValueError /\ exists a w b, val = a ++ w ++ b /\ malformed_number w.
Proof. exact parse_value_raise. Qed.
Print Assumptions C04_raises_only_on_malformed_number_partial.
Example C04_raises_only_on_malformed_number_partial_ex :
  parse_value no_files (txt "run 2020.01.31 % start") true false = Raise ValueError.
Proof. exact ex_malformed. Qed.
Theorem C04_malformed_number_raises : forall files pf w,
  word w -> malformed_number w -> parse_value files w pf false = Raise ValueError.
Proof. exact parse_malformed_word. Qed.
Print Assumptions C04_malformed_number_raises.
Example C04_malformed_number_raises_ex :
  word (txt "1.2.3") /\ malformed_number (txt "1.2.3").
Proof. exact ex_malformed_word. Qed.

(** C05. Backups. *)
Theorem C05_backup_first_free : forall ex fname b,
  get_backupfilename ex fname = Ok b <->
  exists n, (1 <= n <= 999)%Z /\ backup_candidate fname n b /\ ex b = false /\
    forall m s, (1 <= m < n)%Z -> backup_candidate fname m s -> ex s = true.
Proof. exact backup_first_free. Qed.
Print Assumptions C05_backup_first_free.
Example C05_backup_first_free_ex :
  get_backupfilename (fun n => text_eqb n (txt "a.txt~001")) (txt "a.txt") = Ok (txt "a.txt~002").
Proof. exact ex_backup_name. Qed.

Theorem C05_backup_exhausted : forall ex fname,
  (forall n s, (1 <= n <= 999)%Z -> backup_candidate fname n s -> ex s = true) <->
  get_backupfilename ex fname = Raise ValueError.
Proof. exact backup_exhausted. Qed.
Print Assumptions C05_backup_exhausted.
Example C05_backup_exhausted_ex : get_backupfilename (fun _ => true) (txt "a.txt") = Raise ValueError.
Proof. exact ex_backup_exhausted. Qed.

Theorem C05_backup_preserves : forall d fname d',
  backup d fname = Ok d' ->
  (forall n c, dget n d = Some c -> dget n d' = Some c) /\
  (forall c, dget fname d = Some c -> exists b, dget b d = None /\ dget b d' = Some c /\
      forall n, n <> b -> dget n d' = dget n d) /\
  (dget fname d = None -> d' = d).
Proof. exact backup_preserves. Qed.
Print Assumptions C05_backup_preserves.
Example C05_backup_preserves_ex :
  backup [(txt "a", txt "x"); (txt "a~001", txt "y")] (txt "a") =
  Ok [(txt "a", txt "x"); (txt "a~001", txt "y"); (txt "a~002", txt "x")].
Proof. exact ex_backup. Qed.

(** C49. Writing a configuration and reading it back: fails under Python 3. *)
Theorem C49_write_read_refuted :
  exists p, p <> [] /\ forall date, write_configfile false date p = Raise AttributeError.
Proof. exact write_python3_witness. Qed.
Print Assumptions C49_write_read_refuted.
(** With dictionaries that offer the attribute (Python 2), plain parameters survive exactly.
    Missing: floats (see below), lists, arrays, parameters that are post-processed. *)
Theorem C49_write_read_plain_partial : forall files ncname defaults pf date p ls,
  files [] = None -> NoDup (dkeys p) ->
  Forall (fun kv => plain_key (fst kv) /\ plain_value files pf (snd kv)) p ->
  (forall k, In k derived_parameters -> ~ In k (dkeys p)) ->
  write_configfile true date p = Ok ls ->
  exists p', read_configfile files ncname defaults (Some ls) pf false = Ok p' /\ forall k, dget k p' = dget k p.
Proof. exact write_read_config. Qed.
Print Assumptions C49_write_read_plain_partial.
Example C49_write_read_plain_partial_ex :
  Forall (fun kv => plain_key (fst kv) /\ plain_value no_files true (snd kv)) ex_plain /\
  NoDup (dkeys ex_plain) /\ (forall k, In k derived_parameters -> ~ In k (dkeys ex_plain)) /\
  (let* ls := write_configfile true (txt "today") ex_plain in Ok (skipn 5 ls)) =
  Ok (map txt ["method_moist = belly_johnson"; "          nx = 100"; "process_wind = T"; "   wind_file = "])%string.
Proof. exact ex_write. Qed.
(** Floats lose digits, but stay within half a unit of the last printed decimal. *)
Theorem C49_float_refuted : exists q,
  (~ q == 0)%Q /\ parse_value no_files (print_value [] (VFloat q)) true false = Ok (VFloat (0#1000000)).
Proof. exact float_lost. Qed.
Print Assumptions C49_float_refuted.
Theorem C49_float_accuracy : forall files pf fill q,
  exists r, parse_value files (print_value fill (VFloat q)) pf false = Ok (VFloat r) /\
    ((1 <= q)%Q -> decimals 2 r /\ (Qabs (r - q) <= 1#200)%Q) /\
    ((q < 1)%Q -> decimals 6 r /\ (Qabs (r - q) <= 1#2000000)%Q).
Proof. exact print_float_accuracy. Qed.
Print Assumptions C49_float_accuracy.
Example C49_float_accuracy_ex :
  print_value [] (VFloat (-1234567#1000)) = txt "-1234.567000" /\
  print_value [] (VFloat (1234567#1000)) = txt "1234.57".
Proof. exact ex_float_print. Qed.
Theorem C49_float_exact : forall files pf fill q,
  ((1 <= q)%Q -> decimals 2 q) -> ((q < 1)%Q -> decimals 6 q) ->
  exists r, parse_value files (print_value fill (VFloat q)) pf false = Ok (VFloat r) /\ (r == q)%Q.
Proof. exact float_roundtrip_exact. Qed.
Print Assumptions C49_float_exact.
Example C49_float_exact_ex : decimals 6 (225#1000000) /\ decimals 2 (5#2).
Proof. exact ex_decimals. Qed.

(** A table under a name that ends in _file is saved to a file of its own, which the line names; other lists are written in the line. *)
Theorem C49_table : forall date p ls x v, write_configfile true date p = Ok ls -> In (x ++ txt "_file", v) p -> (exists l, v = VList l) \/ (exists a, v = VFile a) ->
  exists n, In (repeat " "%char n ++ x ++ txt "_file = " ++ x ++ txt ".txt") ls.
Proof. exact table_line. Qed.
Print Assumptions C49_table.
Example C49_table_ex : (let* ls := write_configfile true (txt "today") ex_lists in Ok (skipn 5 ls)) = Ok [txt "output_vars = zb Ct"; txt "  wind_file = wind.txt"] /\ forall x, txt "output_vars" <> x ++ txt "_file".
Proof. exact ex_lists_written. Qed.
Theorem C49_list : forall date p ls k w ws, write_configfile true date p = Ok ls -> In (k, VList (VStr w :: map VStr ws)) p -> (forall x, k <> x ++ txt "_file") ->
  exists n, In (repeat " "%char n ++ k ++ txt " = " ++ w ++ flat_map (fun x => " "%char :: x) ws) ls.
Proof. exact list_line. Qed.
Print Assumptions C49_list.
Example C49_list_ex : (let* ls := write_configfile true (txt "today") ex_lists in Ok (skipn 5 ls)) = Ok [txt "output_vars = zb Ct"; txt "  wind_file = wind.txt"] /\ forall x, txt "output_vars" <> x ++ txt "_file".
Proof. exact ex_lists_written. Qed.

(** C51. The words True and False are read as text, and text is true. *)
Theorem C51_word_False_refuted : exists v,
  parse_value no_files (txt "False") true false = Ok v /\ truthy v = Ok true.
Proof. exact word_False_true. Qed.
Print Assumptions C51_word_False_refuted.
Theorem C51_letters_partial : forall files pf (b : bool),
  exists v, parse_value files (txt (if b then "T" else "F")%string) pf false = Ok v /\ truthy v = Ok b.
Proof. exact letters_truth. Qed.
Print Assumptions C51_letters_partial.
Example C51_letters_partial_ex : parse_value no_files (txt "F") true false = Ok (VBool false).
Proof. exact ex_bool. Qed.

(** C52. Scientific notation is not recognised: the text is kept. *)
Theorem C52_scientific_refuted : exists s,
  s = txt "1e-3" /\ parse_value no_files s true false = Ok (VStr s).
Proof. exact scientific_text. Qed.
Print Assumptions C52_scientific_refuted.
(** Decimal notation is read as exactly the number written: digits before and after the dot. *)
Theorem C52_decimal_partial : forall files pf a b,
  Forall digit a -> Forall digit b -> a <> [] -> b <> [] ->
  exists r, parse_value files (a ++ "."%char :: b) pf false = Ok (VFloat r) /\
  (r == inject_Z (numeral_value a) + inject_Z (numeral_value b) / inject_Z (10 ^ Z.of_nat (length b)))%Q.
Proof. exact decimal_value. Qed.
Print Assumptions C52_decimal_partial.
Example C52_decimal_partial_ex :
  parse_value no_files (txt "12.050") true false = Ok (VFloat (12050#1000)).
Proof. exact ex_decimal. Qed.
