(** Concrete cases for the configuration properties. *)
From Coq Require Import Lqa.
From Verif Require Import Base Config_Model Config_Spec Config_Proofs.
Local Open Scope char_scope.
Local Open Scope nat_scope.

Definition no_files : fs := fun _ => None.
Definition ex_defaults : dict value :=
  [(txt "CFL", VFloat 1); (txt "dt", VInt 60); (txt "output_file", VNone)].
Definition ex_lines : list text :=
  [txt "%% header = 1"; txt "CFL=1"; txt "just text"; txt "  CFL   = 0.50 % less"; txt " % CFL = 7"; txt "nx = 10"].

(** Decision procedure for [assigns]. *)
Definition assignment (line : text) : option (text * text) :=
  if has_char "=" line && negb (starts_with ["%"] (strip line)) then
    match split_char "=" line with
    | key :: val :: _ => Some (strip key, val)
    | _ => None
    end
  else None.
Lemma assignment_spec line k v : assigns line k v <-> assignment line = Some (k, v).
Proof.
  rewrite assigns_split. unfold assignment. split.
  - intros [-> [-> [key [rest [-> <-]]]]]. reflexivity.
  - destruct (has_char "=" line); [|discriminate]. destruct (starts_with ["%"] (strip line)); [discriminate|].
    cbn [negb andb]. destruct (split_char "=" line) as [|key [|val rest]]; try discriminate.
    intros E. injection E as <- <-. split; [reflexivity|]. split; [reflexivity|]. now exists key, rest.
Qed.
Definition assigns_key (k line : text) : bool :=
  match assignment line with Some (k', _) => text_eqb k k' | None => false end.
Lemma never_assigned_b ls k : existsb (assigns_key k) ls = false -> never_assigned ls k.
Proof.
  intros H l v Hl Ha. apply assignment_spec in Ha.
  assert (existsb (assigns_key k) ls = true); [|congruence].
  apply existsb_exists. exists l. split; [exact Hl|]. unfold assigns_key. rewrite Ha. apply text_eqb_refl.
Qed.

Lemma ex_last_assignment :
  (exists p, read_configfile no_files (txt "a.nc") ex_defaults (Some ex_lines) true true = Ok p /\
     dget (txt "CFL") p = Some (VFloat (50#100))) /\
  ~ In (txt "CFL") derived_parameters /\ last_assignment ex_lines (txt "CFL") (txt " 0.50 % less").
Proof.
  split; [|split].
  - eexists. split; [vm_compute; reflexivity|vm_compute; reflexivity].
  - cbv. intuition discriminate.
  - exists (firstn 3 ex_lines), (txt "  CFL   = 0.50 % less"), (skipn 4 ex_lines).
    split; [reflexivity|]. split.
    + apply assignment_spec. vm_compute. reflexivity.
    + apply never_assigned_b. vm_compute. reflexivity.
Qed.

Lemma ex_never_assigned :
  (exists p, read_configfile no_files (txt "a.nc") ex_defaults (Some ex_lines) true true = Ok p /\
     dget (txt "dt") p = Some (VInt 60)) /\
  never_assigned ex_lines (txt "dt").
Proof.
  split.
  - eexists. split; vm_compute; reflexivity.
  - apply never_assigned_b. vm_compute. reflexivity.
Qed.

Lemma ex_comment_line : forall k v, ~ assigns (txt "  % CFL = 3") k v.
Proof. intros k v H. apply assignment_spec in H. discriminate H. Qed.

Lemma ex_inline_comment :
  parse_value no_files (txt " 12 % seconds % really") true false = Ok (VInt 12).
Proof. vm_compute. reflexivity. Qed.

Lemma config_output_file files nc d ls pf ld p p1 v :
  read_configfile files nc d (Some ls) pf ld = Ok p ->
  read_lines files pf (if ld then d else []) ls = Ok p1 ->
  dget (txt "output_file") p1 = Some v ->
  (v = VNone -> dget (txt "output_file") p = Some (VStr nc)) /\
  (forall s, s <> [] -> v = VStr s -> dget (txt "output_file") p = Some (VStr s)).
Proof.
  unfold read_configfile. intros H H1 Hv. rewrite H1 in H. cbn [bind] in H.
  inv_bind H. inv_bind H. inv_bind H. inv_bind H.
  rename a into p2, a0 into p3, a1 into p4, a2 into p5.
  assert (Q2 : dget (txt "output_file") p2 = Some v).
  { unfold finish_grain in E. destruct (dget (txt "grain_dist") p1); [|congruence].
    inv_bind E. inversion E; subst. rewrite !dget_dset_other by (vm_compute; discriminate). exact Hv. }
  assert (Q4 : dget (txt "output_file") p4 = dget (txt "output_file") p3).
  { unfold finish_h in E1. destruct (dget (txt "h") p3); [|congruence].
    inv_bind E1. destruct a; [congruence|]. inv_bind E1. inversion E1.
    apply dget_dset_other. vm_compute; discriminate. }
  assert (Q5 : dget (txt "output_file") p5 = dget (txt "output_file") p4).
  { unfold finish_fences in E2. destruct (dget (txt "process_fences") p4); [|congruence].
    inv_bind E2. destruct a; [congruence|]. inversion E2. apply dget_dset_other. vm_compute; discriminate. }
  assert (Q6 : dget (txt "output_file") p = dget (txt "output_file") p5).
  { unfold finish_nsave in H. destruct (dget (txt "nsavetimes") p5); [|congruence].
    inv_bind H. destruct a; [congruence|]. inv_bind H. inv_bind H. inv_bind H. inv_bind H.
    destruct (Qeq_bool a2 0); [discriminate|]. inversion H. apply dget_dset_other. vm_compute; discriminate. }
  rewrite Q6, Q5, Q4. unfold finish_output in E0. rewrite Q2 in E0. split.
  - intros ->. cbn [truthy bind] in E0. inversion E0. apply dget_dset_same.
  - intros s Hs ->. cbn [truthy bind] in E0. destruct s; [congruence|]. inversion E0; subst. exact Q2.
Qed.

Lemma ex_output_file :
  exists p, read_configfile no_files (txt "a.nc") ex_defaults (Some ex_lines) true true = Ok p /\
     dget (txt "output_file") p = Some (VStr (txt "a.nc")).
Proof. eexists. split; vm_compute; reflexivity. Qed.

Lemma ex_int :
  parse_value no_files (txt "-1203") true false = Ok (VInt (-1203)) /\
  print_value (txt "<novalue>") (VInt (-1203)) = txt "-1203".
Proof. split; vm_compute; reflexivity. Qed.
Lemma ex_bool : parse_value no_files (txt "F") true false = Ok (VBool false).
Proof. vm_compute. reflexivity. Qed.
Lemma ex_list :
  Forall simple_scalar [VInt 3; VBool true; VInt (-20)] /\
  print_value [] (VList [VInt 3; VBool true; VInt (-20)]) = txt "3 T -20".
Proof. split; [repeat constructor|vm_compute; reflexivity]. Qed.
Lemma none_default_fill :
  exists v, parse_value no_files (print_value (txt "<novalue>") v) true false <> Ok v /\ v = VNone.
Proof. exists VNone. split; [vm_compute; discriminate|reflexivity]. Qed.
Lemma singleton_list :
  exists v, parse_value no_files (print_value [] (VList [v])) true false = Ok v.
Proof. exists (VInt 4). vm_compute. reflexivity. Qed.

Ltac not_numeric := let H := fresh in intros H; apply float_re_spec in H; vm_compute in H; discriminate H.
Ltac is_word := split; [vm_compute; discriminate|
  vm_compute; repeat (constructor; [split; [unfold space; vm_compute; lia|discriminate]|]); constructor].

Lemma text_verbatim_fails :
  exists s, word s /\ ~ looks_numeric s /\
    ~ In s [txt "T"; txt "F"; txt "True"; txt "False"; txt "None"] /\
    parse_value no_files s true false <> Ok (VStr s).
Proof.
  exists (txt "Nonerodible.txt"). split; [is_word|]. split; [not_numeric|].
  split; [vm_compute; intuition discriminate|vm_compute; discriminate].
Qed.

Lemma ex_text :
  word (txt "kok_2012") /\ ~ looks_numeric (txt "kok_2012") /\ (forall r, txt "kok_2012" <> txt "None" ++ r) /\
  parse_value no_files (txt "kok_2012") true false = Ok (VStr (txt "kok_2012")).
Proof.
  split; [is_word|]. split; [not_numeric|]. split; [|vm_compute; reflexivity].
  intros r. vm_compute. discriminate.
Qed.

Lemma equal_sign_cut :
  exists line p, read_line no_files true [] line = Ok p /\ line = txt "output_file = run=3.nc" /\
    dget (txt "output_file") p = Some (VStr (txt "run")).
Proof. exists (txt "output_file = run=3.nc"). eexists. split; [vm_compute; reflexivity|]. split; [reflexivity|vm_compute; reflexivity]. Qed.

Lemma malformed_witness : exists val, parse_value no_files val true false = Raise ValueError.
Proof. exists (txt "1.2.3"). vm_compute. reflexivity. Qed.
Lemma ex_malformed : parse_value no_files (txt "run 2020.01.31 % start") true false = Raise ValueError.
Proof. vm_compute. reflexivity. Qed.
Lemma ex_malformed_word : word (txt "1.2.3") /\ malformed_number (txt "1.2.3").
Proof.
  split; [is_word|]. apply (parse_word_raise_iff no_files true). exists ValueError. vm_compute. reflexivity.
Qed.

Lemma ex_backup_name :
  get_backupfilename (fun n => text_eqb n (txt "a.txt~001")) (txt "a.txt") = Ok (txt "a.txt~002").
Proof. vm_compute. reflexivity. Qed.
Lemma ex_backup_exhausted : get_backupfilename (fun _ => true) (txt "a.txt") = Raise ValueError.
Proof. apply backup_exhausted. reflexivity. Qed.
Lemma ex_backup :
  backup [(txt "a", txt "x"); (txt "a~001", txt "y")] (txt "a") =
  Ok [(txt "a", txt "x"); (txt "a~001", txt "y"); (txt "a~002", txt "x")].
Proof. vm_compute. reflexivity. Qed.

Lemma write_python3_witness : exists p, p <> [] /\ forall date, write_configfile false date p = Raise AttributeError.
Proof. exists ex_defaults. split; [discriminate|reflexivity]. Qed.

Definition ex_plain : dict value :=
  [(txt "nx", VInt 100); (txt "process_wind", VBool true); (txt "wind_file", VNone);
   (txt "method_moist", VStr (txt "belly_johnson"))].
Lemma ex_write :
  Forall (fun kv => plain_key (fst kv) /\ plain_value no_files true (snd kv)) ex_plain /\
  NoDup (dkeys ex_plain) /\ (forall k, In k derived_parameters -> ~ In k (dkeys ex_plain)) /\
  (let* ls := write_configfile true (txt "today") ex_plain in Ok (skipn 5 ls)) =
  Ok (map txt ["method_moist = belly_johnson"; "          nx = 100"; "process_wind = T"; "   wind_file = "])%string.
Proof.
  split; [|split; [|split]].
  - repeat (constructor; [split; [split; [is_word|vm_compute; intuition discriminate]|
      first [exact I|
        split; [is_word|]; split; [vm_compute; intuition discriminate|];
        split; [vm_compute; discriminate|]; split; [vm_compute; discriminate|];
        split; [not_numeric|]; split; [intros r; vm_compute; discriminate|reflexivity]]]|]).
    constructor.
  - unfold ex_plain, dkeys. cbn [map fst]. repeat constructor; vm_compute; intuition discriminate.
  - intros k H H'. vm_compute in H, H'.
    repeat (destruct H as [<-|H]; [intuition discriminate|]). exact H.
  - vm_compute. reflexivity.
Qed.

Lemma float_lost : exists q,
  (~ q == 0)%Q /\ parse_value no_files (print_value [] (VFloat q)) true false = Ok (VFloat (0#1000000)).
Proof. exists (1#10000000). split; [discriminate|vm_compute; reflexivity]. Qed.
Lemma ex_float_print :
  print_value [] (VFloat (-1234567#1000)) = txt "-1234.567000" /\
  print_value [] (VFloat (1234567#1000)) = txt "1234.57".
Proof. split; vm_compute; reflexivity. Qed.
Lemma ex_decimals : decimals 6 (225#1000000) /\ decimals 2 (5#2).
Proof. split; [exists 225%Z|exists 250%Z]; vm_compute; reflexivity. Qed.

Lemma word_False_true : exists v,
  parse_value no_files (txt "False") true false = Ok v /\ truthy v = Ok true.
Proof. exists (VStr (txt "False")). split; vm_compute; reflexivity. Qed.
Lemma letters_truth files pf (b : bool) :
  exists v, parse_value files (txt (if b then "T" else "F")%string) pf false = Ok v /\ truthy v = Ok b.
Proof. exists (VBool b). destruct b; split; reflexivity. Qed.
Lemma scientific_text : exists s, s = txt "1e-3" /\ parse_value no_files s true false = Ok (VStr s).
Proof. exists (txt "1e-3"). split; [reflexivity|vm_compute; reflexivity]. Qed.

Lemma decimal_value files pf (a b : text) :
  Forall digit a -> Forall digit b -> a <> [] -> b <> [] ->
  exists r, parse_value files (a ++ "." :: b) pf false = Ok (VFloat r) /\
  (r == inject_Z (numeral_value a) + inject_Z (numeral_value b) / inject_Z (10 ^ Z.of_nat (length b)))%Q.
Proof.
  intros Fa Fb Na Nb.
  assert (Hc : forall c, In c (a ++ "." :: b) -> numeric_char c).
  { rewrite Forall_forall in Fa, Fb. intros c Hc. apply in_app_or in Hc.
    destruct Hc as [Hc|[Hc|Hc]]; [left; now apply Fa|right; congruence|left; now apply Fb]. }
  rewrite parse_plain.
  2:{ intros c Hin. apply Hc in Hin. apply float_chars_plain.
      destruct Hin as [H|H]; [now left|right; now right]. }
  unfold parse_word.
  assert (HTF : (a ++ "." :: b <> ["T"]) /\ (a ++ "." :: b <> ["F"])).
  { apply looks_not_T. exists (a ++ "." :: b). split; [destruct a; discriminate|].
    split; [now apply Forall_forall|now left]. }
  rewrite !text_eqb_neq by tauto. cbn [orb].
  destruct a as [|x a]; [congruence|].
  assert (Hx : x <> "-") by (inversion Fa; subst; now apply digit_not_minus).
  change ((x :: a) ++ "." :: b) with (x :: (a ++ "." :: b)) in *.
  rewrite int_re_pos, float_re_pos, float_of_pos by exact Hx.
  assert (Hi : unsigned_int_re (x :: a ++ "." :: b) = false).
  { unfold unsigned_int_re. destruct (forallb is_digit (x :: a ++ "." :: b)) eqn:E; [|reflexivity].
    rewrite forallb_forall in E. rewrite <- (E "."); [reflexivity|].
    right. apply in_or_app. right. now left. }
  rewrite Hi. rewrite (proj2 (unsigned_float_re_spec _)).
  2:{ split; [discriminate|]. now apply Forall_forall. }
  unfold unsigned_float_of.
  destruct (while_app (x :: a) "." b Fa dot_not_digit) as [T D].
  cbn [app] in T, D. rewrite T, D. rewrite forallb_digit by exact Fb.
  cbn [is_dot Ascii.eqb Bool.eqb andb]. destruct b as [|y b]; [congruence|].
  set (u := x :: a) in *. set (v := y :: b) in *. cbn [bind].
  eexists. split; [reflexivity|]. rewrite digits_val_app, <- !numeral_digits.
  assert (Hl : 1 <= length v) by (unfold v; cbn [length]; lia).
  pose proof (pow10_Z (length v) Hl) as HP. pose proof (Qpow10_pos (length v)) as HPp.
  set (P := (10 ^ Z.of_nat (length v))%Z) in *.
  rewrite Qmake_Qdiv, HP, inject_Z_plus, inject_Z_mult. field. lra.
Qed.
Lemma ex_decimal : parse_value no_files (txt "12.050") true false = Ok (VFloat (12050#1000)).
Proof. vm_compute. reflexivity. Qed.
