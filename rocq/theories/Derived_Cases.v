(** Concrete cases for derived parameters, names of files and lists. *)
From Coq Require Import QArith Lia.
From Verif Require Import Base Config_Model Config_Spec Config_Proofs Config_Cases Derived_Spec Derived_Proofs Derived_Words.
Local Open Scope char_scope.
Local Open Scope nat_scope.

(** Defaults as in constants.py, some of them. *)
Definition d_defaults : dict value :=
  [(txt "grain_size", VList [VFloat (225#1000000)]); (txt "grain_dist", VList [VInt 1]);
   (txt "output_file", VNone); (txt "h", VNone); (txt "z", VFloat 10); (txt "process_fences", VBool false);
   (txt "nsavetimes", VNone); (txt "dzb_interval", VInt 86400); (txt "dt", VFloat 60)].
Definition d_lines : list text := [txt "dt = -7.0"; txt "grain_size = 0.5"; txt "z = 4"; txt "process_fences = 0"].
Definition d_lines2 : list text :=
  [txt "h = 2"; txt "nsavetimes = 12"; txt "output_file = run.nc"; txt "process_fences = T"].

(** What is read. *)
Definition read_d ls := read_configfile no_files (txt "a.nc") d_defaults (Some ls) true true.

Lemma given_default ls k v : existsb (assigns_key k) ls = false -> dget k d_defaults = Some v ->
  given no_files true d_defaults true ls k v.
Proof. intros H D. right. split; [now apply never_assigned_b|]. split; [reflexivity|exact D]. Qed.
Lemma given_assigned ls1 line ls2 k raw v : assignment line = Some (k, raw) -> existsb (assigns_key k) ls2 = false ->
  parse_value no_files raw true false = Ok v -> given no_files true d_defaults true (ls1 ++ line :: ls2) k v.
Proof.
  intros A N P. left. exists raw. split; [|exact P]. exists ls1, line, ls2. split; [reflexivity|].
  split; [now apply assignment_spec|]. intros l v' Hl Ha. exact (never_assigned_b _ _ N l v' Hl Ha).
Qed.

Lemma c152_case : exists p, read_d d_lines = Ok p /\
  given no_files true d_defaults true d_lines (txt "nsavetimes") VNone /\
  given no_files true d_defaults true d_lines (txt "dzb_interval") (VInt 86400) /\
  given no_files true d_defaults true d_lines (txt "dt") (VFloat (-70#10)) /\
  dget (txt "nsavetimes") p = Some (VInt (-12342)) /\ integer_part (inject_Z 86400 / (-70#10)) (-12342) /\
  given no_files true d_defaults true d_lines (txt "h") VNone /\
  given no_files true d_defaults true d_lines (txt "z") (VInt 4) /\ dget (txt "h") p = Some (VInt 4) /\
  given no_files true d_defaults true d_lines (txt "process_fences") (VInt 0) /\
  dget (txt "process_fences") p = Some (VBool false) /\
  given no_files true d_defaults true d_lines (txt "grain_dist") (VList [VInt 1]) /\
  given no_files true d_defaults true d_lines (txt "grain_size") (VFloat (5#10)) /\
  dget (txt "grain_size") p = Some (VList [VFloat (5#10)]) /\
  dget (txt "output_file") p = Some (VStr (txt "a.nc")).
Proof.
  eexists. split; [vm_compute; reflexivity|].
  split; [apply given_default; vm_compute; reflexivity|]. split; [apply given_default; vm_compute; reflexivity|].
  split; [apply (given_assigned [] (txt "dt = -7.0") (tl d_lines) _ (txt " -7.0")); vm_compute; reflexivity|].
  split; [vm_compute; reflexivity|].
  split; [split; intros H; [exfalso; vm_compute in H; now apply H|split; [vm_compute; reflexivity|vm_compute; discriminate]]|].
  split; [apply given_default; vm_compute; reflexivity|].
  split; [apply (given_assigned [txt "dt = -7.0"; txt "grain_size = 0.5"] (txt "z = 4") [txt "process_fences = 0"] _ (txt " 4")); vm_compute; reflexivity|].
  split; [vm_compute; reflexivity|].
  split; [apply (given_assigned [txt "dt = -7.0"; txt "grain_size = 0.5"; txt "z = 4"] (txt "process_fences = 0") [] _ (txt " 0")); vm_compute; reflexivity|].
  split; [vm_compute; reflexivity|].
  split; [apply given_default; vm_compute; reflexivity|].
  split; [apply (given_assigned [txt "dt = -7.0"] (txt "grain_size = 0.5") [txt "z = 4"; txt "process_fences = 0"] _ (txt " 0.5")); vm_compute; reflexivity|].
  split; vm_compute; reflexivity.
Qed.

Lemma c152_kept_case : exists p, read_d d_lines2 = Ok p /\
  given no_files true d_defaults true d_lines2 (txt "nsavetimes") (VInt 12) /\ is_set (VInt 12) /\
  dget (txt "nsavetimes") p = Some (VInt 12) /\ dget (txt "h") p = Some (VInt 2) /\
  dget (txt "process_fences") p = Some (VBool true) /\ dget (txt "output_file") p = Some (VStr (txt "run.nc")).
Proof.
  eexists. split; [vm_compute; reflexivity|].
  split; [apply (given_assigned [txt "h = 2"] (txt "nsavetimes = 12") (skipn 2 d_lines2) _ (txt " 12")); vm_compute; reflexivity|].
  split; [left; constructor; discriminate|]. repeat split; vm_compute; reflexivity.
Qed.
Lemma c152_ambiguous_case :
  In (txt "h") filled_in /\ ambiguous (VList [VInt 1; VInt 2]) /\
  given no_files true d_defaults true [txt "h = 1 2"] (txt "h") (VList [VInt 1; VInt 2]) /\
  read_d [txt "h = 1 2"] = Raise ValueError.
Proof.
  split; [right; now left|]. split; [right; now exists (VInt 1), (VInt 2), []|].
  split; [apply (given_assigned [] (txt "h = 1 2") [] _ (txt " 1 2")); vm_compute; reflexivity|].
  vm_compute. reflexivity.
Qed.

(** One data file that can be read and one that cannot. *)
Definition two_files : fs := fun s =>
  if text_eqb s (txt "wind.txt") then Some (Some [[0; 5; 270]%Q]) else
  if text_eqb s (txt "notes.txt") then Some None else None.
Lemma name_like_b s : s <> [] -> forallb (fun c => negb (is_space c) && negb (Ascii.eqb c "%")) s = true ->
  text_eqb s ["T"] = false -> text_eqb s ["F"] = false -> float_re s = false -> starts_with (txt "None") s = false ->
  name_like s.
Proof.
  intros N W T F L S. split; [split; [exact N|]|].
  - apply Forall_forall. intros c Hc. rewrite forallb_forall in W. specialize (W c Hc).
    apply andb_prop in W. destruct W as [W1 W2]. split.
    + destruct (is_space_spec c); [discriminate|assumption].
    + intros ->. discriminate.
  - split; [intros ->; discriminate|]. split; [intros ->; discriminate|].
    split; [intros X; apply float_re_spec in X; congruence|].
    intros r ->. unfold starts_with in S. cbn in S. discriminate.
Qed.
Lemma c153_case : name_like (txt "wind.txt") /\ two_files (txt "wind.txt") = Some (Some [[0; 5; 270]%Q]) /\
  name_like (txt "notes.txt") /\ two_files (txt "notes.txt") = Some None /\
  name_like (txt "other.txt") /\ two_files (txt "other.txt") = None.
Proof. repeat split; try (vm_compute; reflexivity); apply name_like_b; try reflexivity; discriminate. Qed.

Lemma c154_list : exists raw f1 f2, ~ same_text f1 f2 raw.
Proof.
  exists (txt "wind.txt extra.txt"), two_files, no_files. intros H. vm_compute in H. discriminate.
Qed.
Lemma c154_case : has_char " " (clean (txt " wind.txt % of 2010")) = false /\
  parse_value two_files (txt " wind.txt % of 2010") false false = Ok (VStr (txt "wind.txt")).
Proof. split; vm_compute; reflexivity. Qed.

Lemma c155_blanks : exists w1 w2 n, word w1 /\ word w2 /\
  parse_value no_files (items w1 [(n, w2)]) true false <> parse_value no_files (items w1 [(0, w2)]) true false.
Proof.
  exists (txt "0.2"), (txt "0.3"), 1. split; [|split].
  - split; [discriminate|]. repeat constructor; (unfold space; cbn; lia) || discriminate.
  - split; [discriminate|]. repeat constructor; (unfold space; cbn; lia) || discriminate.
  - vm_compute. discriminate.
Qed.
Lemma c155_case : items (txt "0.2") [(2, txt "bed.txt")] = txt "0.2   bed.txt" /\
  parse_value no_files (txt "0.2   bed.txt") true false =
  Ok (VList (with_gaps (VFloat (2#10)) [(2, VStr (txt "bed.txt"))])) /\
  with_gaps (VFloat (2#10)) [(2, VStr (txt "bed.txt"))] = [VFloat (2#10); VNone; VNone; VStr (txt "bed.txt")].
Proof. repeat split. Qed.
