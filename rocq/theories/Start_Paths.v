(** Proofs about paths: which directories and file a path stands for. *)
From Verif Require Import Base Config_Model Config_Proofs State_Model Start_Model Start_Spec Start_Proofs Start_Cases.
Open Scope list_scope.
Open Scope nat_scope.

Lemma split_slashes k t : filter (fun n => negb (text_eqb n [])) (split_char "/" (repeat "/"%char k ++ t)) =
  filter (fun n => negb (text_eqb n [])) (split_char "/" t).
Proof.
  induction k as [|k IH]; [reflexivity|]. cbn [repeat app split_char]. rewrite Ascii.eqb_refl. cbn [filter text_eqb negb]. exact IH.
Qed.
Lemma names_written k l : good_names l -> names (written k l) = l.
Proof.
  intros H. unfold names, written. induction H as [|n l [Hn Hs] Hl IH].
  - cbn [map List.concat]. rewrite split_slashes. reflexivity.
  - cbn [map List.concat]. rewrite <- !app_assoc, split_slashes.
    assert (Hf : forall m, filter (fun n => negb (text_eqb n [])) (n :: m) = n :: filter (fun n => negb (text_eqb n [])) m).
    { intros m. cbn [filter]. now rewrite text_eqb_neq by exact Hn. }
    replace (repeat "/"%char (S k) ++ List.concat (map (fun n => n ++ repeat "/"%char (S k)) l))
      with ("/"%char :: repeat "/"%char k ++ List.concat (map (fun n => n ++ repeat "/"%char (S k)) l)) by reflexivity.
    rewrite split_char_app by exact Hs. rewrite Hf. f_equal. exact IH.
Qed.

Lemma path_means cwd k l : good_names l ->
  resolve cwd (written (S k) l) = l /\ (l <> [] -> resolve cwd (written 0 l) = cwd ++ l).
Proof.
  intros H. split.
  - unfold resolve. replace (absolute (written (S k) l)) with true by reflexivity. now apply names_written.
  - intros Hl. unfold resolve. replace (absolute (written 0 l)) with false; [now rewrite names_written|].
    destruct H as [|n l [Hn Hs] Hl']; [now destruct Hl|].
    destruct n as [|c n]; [now destruct Hn|]. unfold written. cbn [repeat app map List.concat]. unfold absolute, starts_with.
    cbn [txt list_ascii_of_string List.length firstn text_eqb].
    destruct (Ascii.eqb_spec "/" c) as [<-|]; [destruct Hs; now left|reflexivity].
Qed.
Lemma rooted_config date loop rest cb restart w d1 d2 :
  snd (command date loop ("/"%char :: rest) cb restart (change_dir d1 w)) = snd (command date loop ("/"%char :: rest) cb restart (change_dir d2 w)).
Proof. now apply absolute_config. Qed.

Lemma case_path : good_names [txt "home"; txt "u"] /\ written 1 [txt "home"; txt "u"] = txt "/home//u//" /\ written 0 [txt "runs"] = txt "runs/".
Proof.
  split; [|split; reflexivity].
  repeat constructor; try discriminate; intros H; cbn in H; repeat (destruct H as [H|H]; [discriminate H|]); contradiction.
Qed.
