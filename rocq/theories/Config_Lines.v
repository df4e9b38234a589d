(** Lists and tables in a configuration file that is written. *)
From Coq Require Import Permutation.
From Verif Require Import Base Config_Model Config_Spec.
Local Open Scope char_scope.
Local Open Scope nat_scope.

Lemma line_written date p ls k v : write_configfile true date p = Ok ls -> In (k, v) p -> exists w, In (config_line w (k, v)) ls.
Proof.
  unfold write_configfile. cbn [negb]. generalize (config_header date). intros hd. destruct p as [|kv p]; [discriminate|]. intros E H. injection E as <-. eexists. apply in_or_app. right. apply in_map.
  apply (Permutation_in _ (Permutation_sym (sort_by_perm fst (kv :: p))) H).
Qed.
Lemma suffix_found (x suf : text) : ends_with suf (x ++ suf) = true /\ drop_suffix suf (x ++ suf) = x.
Proof.
  unfold ends_with, drop_suffix. rewrite app_length. replace (length x + length suf - length suf) with (length x) by lia. rewrite skipn_app, skipn_all, Nat.sub_diag. cbn [skipn app].
  rewrite text_eqb_refl. split. reflexivity. rewrite firstn_app, firstn_all, Nat.sub_diag. cbn [firstn]. apply app_nil_r.
Qed.
Lemma suffix_not_found (k suf : text) : (forall x, k <> x ++ suf) -> ends_with suf k = false.
Proof. intros H. unfold ends_with. apply text_eqb_neq. intros E. apply (H (firstn (length k - length suf) k)). rewrite E at 2. symmetry. apply firstn_skipn. Qed.
Lemma table_line date p ls x v : write_configfile true date p = Ok ls -> In (x ++ txt "_file", v) p -> (exists l, v = VList l) \/ (exists a, v = VFile a) ->
  exists n, In (repeat " " n ++ x ++ txt "_file = " ++ x ++ txt ".txt") ls.
Proof.
  intros E H Hv. destruct (line_written _ _ _ _ _ E H) as (w & Hl). exists (w - length (x ++ txt "_file")). revert Hl. unfold config_line, pad_left. destruct (suffix_found x (txt "_file")) as (-> & ->).
  assert (iterable v = true) as -> by (destruct Hv as [(l & ->) | (a & ->)]; reflexivity). cbn [andb]. rewrite <- !app_assoc. trivial.
Qed.
Lemma join_words w ws : join [" "] (map (print_value (txt "<novalue>")) (VStr w :: map VStr ws)) = w ++ flat_map (fun x => " " :: x) ws.
Proof.
  revert w. induction ws as [|w' ws IH]; intros w. cbn. symmetry. apply app_nil_r.
  change (map VStr (w' :: ws)) with (VStr w' :: map VStr ws). change (w ++ [" "] ++ join [" "] (map (print_value (txt "<novalue>")) (VStr w' :: map VStr ws)) = w ++ flat_map (fun x => " " :: x) (w' :: ws)). rewrite IH. reflexivity.
Qed.
Lemma list_line date p ls k w ws : write_configfile true date p = Ok ls -> In (k, VList (VStr w :: map VStr ws)) p -> (forall x, k <> x ++ txt "_file") ->
  exists n, In (repeat " " n ++ k ++ txt " = " ++ w ++ flat_map (fun x => " " :: x) ws) ls.
Proof.
  intros E H Hk. destruct (line_written _ _ _ _ _ E H) as (n & Hl). exists (n - length k). revert Hl. unfold config_line, pad_left. rewrite (suffix_not_found _ _ Hk). cbn [andb].
  change (print_value [] (VList (VStr w :: map VStr ws))) with (join [" "] (map (print_value (txt "<novalue>")) (VStr w :: map VStr ws))). rewrite join_words, <- !app_assoc. trivial.
Qed.
Definition ex_lists : dict value := [(txt "wind_file", VList [VInt 1; VInt 2]); (txt "output_vars", VList [VStr (txt "zb"); VStr (txt "Ct")])].
Lemma ex_lists_written : (let* ls := write_configfile true (txt "today") ex_lists in Ok (skipn 5 ls)) = Ok [txt "output_vars = zb Ct"; txt "  wind_file = wind.txt"] /\ forall x, txt "output_vars" <> x ++ txt "_file".
Proof. split. vm_compute. reflexivity. intros x E. apply (f_equal (fun t => ends_with (txt "_file") t)) in E. rewrite (proj1 (suffix_found x (txt "_file"))) in E. discriminate. Qed.
