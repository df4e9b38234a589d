From Coq Require Import Lqa.
From Verif Require Import Base Num Config_Model Config_Proofs State_Model Start_Model Start_Spec.

Lemma run_cwd date loop r cb restart w w' u : run date loop r cb restart w = (w', Ok u) -> cwd w' = cwd w.
Proof.
  unfold run. destruct (body date loop r cb restart (change_dir (removelast (configfile r)) w)) as [w1 res].
  intros H. injection H as H1 H2. subst. reflexivity.
Qed.
Lemma write_params_cwd date r w : cwd (fst (write_params date r w)) = cwd w.
Proof.
  unfold write_params. destruct (changed r); [|reflexivity]. destruct (disk w (configfile r)); [|reflexivity].
  destruct (get_backupfilename _ _); reflexivity.
Qed.
Lemma run_left date loop r cb restart w w' e : run date loop r cb restart w = (w', Raise e) -> cwd w' = removelast (configfile r).
Proof.
  unfold run, body. pose proof (write_params_cwd date r (change_dir (removelast (configfile r)) w)) as Hc.
  destruct (write_params date r (change_dir (removelast (configfile r)) w)) as [w1 written]. cbn [fst] in Hc.
  match goal with |- context [match ?x with Ok _ => _ | Raise _ => _ end] => set (res := x) end.
  intros H. injection H as H1 H2. rewrite H2 in H1. subst w'. exact Hc.
Qed.
Lemma unchanged_body date loop r cb restart w : changed r = false ->
  body date loop r cb restart w =
  (w, let* c := match cb with NoCallback => configured (dget (txt "callback") (params r)) | _ => Ok cb end in
      let* f := parse_callback w c in
      let* _ := announce f in
      match disk w (configfile r) with
      | None => Raise IOError
      | Some conf =>
        let* _ := load_restartfile w restart in
        let u := {| used_params := as_config conf; used_callback := f |} in
        let* _ := loop w u in Ok u
      end).
Proof. intros H. unfold body, write_params. rewrite H. reflexivity. Qed.
Lemma run_files date loop r cb restart w : changed r = false -> same_files w (fst (run date loop r cb restart w)).
Proof.
  intros H p. unfold run. rewrite (unchanged_body _ _ _ _ _ _ H).
  match goal with |- context [match ?x with Ok _ => _ | Raise _ => _ end] => destruct x end; reflexivity.
Qed.
(** The parameters of a run are those of the file. *)
Lemma run_params date loop r cb restart w u : snd (run date loop r cb restart w) = Ok u ->
  changed r = false /\ exists f, disk w (configfile r) = Some f /\ used_params u = as_config f.
Proof.
  unfold run. destruct (changed r) eqn:Hc.
  - unfold body, write_params. rewrite Hc. cbn [change_dir disk].
    destruct (disk w (configfile r)) as [f|]; [destruct (get_backupfilename _ _) as [b|e]|]; cbn; discriminate.
  - rewrite (unchanged_body _ _ _ _ _ _ Hc). cbn [snd].
    destruct (match cb with NoCallback => _ | _ => _ end) as [c|e]; [|discriminate]. cbn [bind].
    destruct (parse_callback _ _) as [g|e]; [|discriminate]. cbn [bind].
    destruct (announce g) as [[]|e]; [|discriminate]. cbn [bind change_dir disk].
    destruct (disk w (configfile r)) as [conf|]; [|discriminate].
    destruct (load_restartfile _ _) as [b|e]; [|discriminate]. cbn [bind].
    destruct (loop _ _) as [[]|e]; [|discriminate]. cbn [bind]. intros H. injection H as <-.
    split; [reflexivity|]. exists conf. split; reflexivity.
Qed.
Lemma set_raises date loop kw r cb restart w : kw <> [] ->
  snd (run date loop (set_params kw r) cb restart w) = Raise AttributeError \/ snd (run date loop (set_params kw r) cb restart w) = Raise ValueError.
Proof.
  intros Hk. destruct kw as [|kv kw]; [contradiction|]. unfold run, set_params, body, write_params. cbn [changed configfile params change_dir disk].
  destruct (disk w (configfile r)) as [f|]; [|left; reflexivity].
  destruct (get_backupfilename _ _) as [b|e] eqn:E; [left; reflexivity|]. right. cbn.
  unfold get_backupfilename in E. destruct (exists_at _ _); [|discriminate]. injection E as <-. reflexivity.
Qed.
Lemma place_eqb_refl p : place_eqb p p = true.
Proof. induction p as [|x p IH]; [reflexivity|]. cbn [place_eqb]. now rewrite text_eqb_refl. Qed.
Lemma place_eqb_eq p q : place_eqb p q = true -> p = q.
Proof.
  revert q. induction p as [|x p IH]; intros [|y q]; cbn [place_eqb]; try discriminate; [reflexivity|].
  intros H. apply andb_prop in H. destruct H as [H1 H2]. destruct (text_eqb_spec x y) as [->|]; [|discriminate]. f_equal. now apply IH.
Qed.
(** A parameter that is set: the configuration file is copied and stays as it is. *)
Lemma set_backup date loop kw r cb restart w f : kw <> [] -> disk w (configfile r) = Some f ->
  disk w (removelast (configfile r) ++ [backup_name (last (configfile r) []) 1]) = None ->
  snd (run date loop (set_params kw r) cb restart w) = Raise AttributeError /\
  (forall p, disk (fst (run date loop (set_params kw r) cb restart w)) p =
    if place_eqb p (removelast (configfile r) ++ [backup_name (last (configfile r) []) 1]) then Some f else disk w p).
Proof.
  intros Hk Hf Hb. destruct kw as [|kv kw]; [contradiction|].
  assert (E : get_backupfilename (fun n => exists_at (change_dir (removelast (configfile r)) w) (removelast (configfile r) ++ [n])) (last (configfile r) [])
     = Ok (backup_name (last (configfile r) []) 1)).
  { unfold get_backupfilename. change 999%nat with (S 998). unfold backup_loop. fold backup_loop.
    assert (X : exists_at (change_dir (removelast (configfile r)) w) (removelast (configfile r) ++ [backup_name (last (configfile r) []) 1]) = false).
    { unfold exists_at. cbn [change_dir disk]. now rewrite Hb. }
    cbv zeta. rewrite X. rewrite X. reflexivity. }
  unfold run, set_params, body, write_params. cbn [changed configfile params change_dir disk]. rewrite Hf.
  change {| cwd := removelast (configfile r); disk := disk w |} with (change_dir (removelast (configfile r)) w). rewrite E. cbn [fst snd write_configfile negb bind].
  split; [reflexivity|]. intros p. reflexivity.
Qed.

(** ** Callbacks *)
Lemma colon_has t : In ":"%char t -> has_char ":" t = true.
Proof. intros H. unfold has_char. apply existsb_exists. exists ":"%char. split; [exact H|reflexivity]. Qed.
Lemma no_colon_has t : no_colon t -> has_char ":" t = false.
Proof.
  intros H. unfold has_char. destruct (existsb (Ascii.eqb ":") t) eqn:E; [|reflexivity]. apply existsb_exists in E. destruct E as [x [Hx Ex]].
  apply Ascii.eqb_eq in Ex. subst x. contradiction.
Qed.
Lemma parse_reference w fname func : no_colon fname -> no_colon func ->
  parse_callback w (Named (reference fname func)) =
  match (if text_eqb fname [] then None else disk w (resolve (cwd w) fname)) with
  | Some f => let* l := as_module f in Ok (if mem func l then Some (InFile (resolve (cwd w) fname) func) else None)
  | None => Raise IOError
  end.
Proof.
  intros H1 H2. unfold parse_callback, reference. rewrite colon_has by (apply in_or_app; right; left; reflexivity).
  rewrite split_char_app by exact H1. rewrite split_char_no by exact H2. reflexivity.
Qed.
Lemma unchanged_run date loop r cb restart w : changed r = false ->
  snd (run date loop r cb restart w) = snd (body date loop r cb restart (change_dir (removelast (configfile r)) w)).
Proof. intros H. unfold run. rewrite (unchanged_body _ _ _ _ _ _ H). reflexivity. Qed.
Lemma mem_true k l : mem k l = true <-> In k l.
Proof.
  unfold mem. rewrite existsb_exists. split.
  - intros [x [Hx E]]. destruct (text_eqb_spec k x); [subst; exact Hx|discriminate].
  - intros H. exists k. split; [exact H|apply text_eqb_refl].
Qed.
(** The callback of a run that succeeds is the one that was found. *)
Lemma run_callback date loop r cb restart w u c : snd (run date loop r cb restart w) = Ok u ->
  (match cb with NoCallback => configured (dget (txt "callback") (params r)) | _ => Ok cb end) = Ok c ->
  parse_callback (change_dir (removelast (configfile r)) w) c = Ok (used_callback u).
Proof.
  intros H Hc. destruct (run_params _ _ _ _ _ _ _ H) as [Hr _]. rewrite (unchanged_run _ _ _ _ _ _ Hr), (unchanged_body _ _ _ _ _ _ Hr) in H. cbn [snd] in H.
  rewrite Hc in H. cbn [bind] in H.
  destruct (parse_callback _ c) as [g|e]; [|discriminate]. cbn [bind] in H.
  destruct (announce g) as [[]|e]; [|discriminate]. cbn [bind] in H.
  destruct (disk _ _) as [conf|]; [|discriminate].
  destruct (load_restartfile _ _) as [b|e]; [|discriminate]. cbn [bind] in H.
  destruct (loop _ _) as [[]|e]; [|discriminate]. cbn [bind] in H. injection H as <-. reflexivity.
Qed.
Lemma run_function date loop r id restart w u : snd (run date loop r (Callable id true) restart w) = Ok u -> used_callback u = Some (Object id true).
Proof. intros H. pose proof (run_callback _ _ _ _ _ _ _ _ H eq_refl) as E. cbn [parse_callback] in E. congruence. Qed.
Lemma run_in_file date loop r fname func restart w u f l : no_colon fname -> no_colon func -> fname <> [] ->
  disk w (resolve (removelast (configfile r)) fname) = Some f -> as_module f = Ok l -> In func l ->
  snd (run date loop r (Named (reference fname func)) restart w) = Ok u ->
  used_callback u = Some (InFile (resolve (removelast (configfile r)) fname) func).
Proof.
  intros H1 H2 H3 Hf Hl Hin H. pose proof (run_callback _ _ _ _ _ _ _ _ H eq_refl) as E.
  rewrite (parse_reference _ _ _ H1 H2) in E. rewrite (text_eqb_neq _ _ H3) in E. cbn [change_dir cwd disk] in E. rewrite Hf, Hl in E. cbn [bind] in E.
  rewrite (proj2 (mem_true func l) Hin) in E. congruence.
Qed.
Lemma run_configured date loop r fname func restart w u f l : no_colon fname -> no_colon func -> fname <> [] ->
  dget (txt "callback") (params r) = Some (VStr (reference fname func)) ->
  disk w (resolve (removelast (configfile r)) fname) = Some f -> as_module f = Ok l -> In func l ->
  snd (run date loop r NoCallback restart w) = Ok u ->
  used_callback u = Some (InFile (resolve (removelast (configfile r)) fname) func).
Proof.
  intros H1 H2 H3 Hp Hf Hl Hin H. assert (Hc : configured (dget (txt "callback") (params r)) = Ok (Named (reference fname func))) by (rewrite Hp; reflexivity).
  pose proof (run_callback _ _ _ _ _ _ _ _ H Hc) as E.
  rewrite (parse_reference _ _ _ H1 H2) in E. rewrite (text_eqb_neq _ _ H3) in E. cbn [change_dir cwd disk] in E. rewrite Hf, Hl in E. cbn [bind] in E.
  rewrite (proj2 (mem_true func l) Hin) in E. congruence.
Qed.
(** The command without options. *)
Lemma command_configured date loop config restart w conf fname func f l : disk w (resolve (cwd w) config) = Some conf ->
  dget (txt "callback") (as_config conf) = Some (VStr (reference fname func)) -> no_colon fname -> no_colon func -> fname <> [] ->
  disk w (resolve (removelast (resolve (cwd w) config)) fname) = Some f -> as_module f = Ok l -> In func l -> restart = None \/ restart = Some [] ->
  (forall u, loop (change_dir (removelast (resolve (cwd w) config)) w) u = Ok tt) ->
  command date loop config None restart w =
    (w, Ok {| used_params := as_config conf; used_callback := Some (InFile (resolve (removelast (resolve (cwd w) config)) fname) func) |}).
Proof.
  intros Hd Hc H1 H2 H3 Hf Hl Hin Hr Hloop. unfold command, construct. rewrite Hd. unfold run, body, write_params. cbn [changed configfile params].
  rewrite Hc. cbn [bind configured]. rewrite (parse_reference _ _ _ H1 H2), (text_eqb_neq _ _ H3). cbn [change_dir cwd disk]. rewrite Hf, Hl. cbn [bind].
  rewrite (proj2 (mem_true func l) Hin). cbn [bind announce]. rewrite Hd.
  assert (E : load_restartfile (change_dir (removelast (resolve (cwd w) config)) w) restart = Ok false) by (destruct Hr as [-> | ->]; reflexivity).
  rewrite E. cbn [bind]. rewrite Hloop. cbn [bind]. destruct w. reflexivity.
Qed.
Lemma run_raises date loop r cb restart w e : changed r = false -> cb <> NoCallback ->
  parse_callback (change_dir (removelast (configfile r)) w) cb = Raise e -> snd (run date loop r cb restart w) = Raise e.
Proof.
  intros Hr Hn E. rewrite (unchanged_run _ _ _ _ _ _ Hr), (unchanged_body _ _ _ _ _ _ Hr). cbn [snd]. destruct cb; try contradiction; cbn [bind]; rewrite E; reflexivity.
Qed.
Lemma missing_file date loop r fname func restart w : changed r = false -> no_colon fname -> no_colon func ->
  disk w (resolve (removelast (configfile r)) fname) = None -> snd (run date loop r (Named (reference fname func)) restart w) = Raise IOError.
Proof.
  intros Hr H1 H2 Hf. apply run_raises; [exact Hr|discriminate|]. rewrite (parse_reference _ _ _ H1 H2). cbn [change_dir cwd disk]. rewrite Hf.
  destruct (text_eqb fname []); reflexivity.
Qed.
Lemma drive_letter date loop r a b c restart w : changed r = false -> no_colon a -> no_colon b -> no_colon c ->
  snd (run date loop r (Named (reference a (reference b c))) restart w) = Raise ValueError.
Proof.
  intros Hr H1 H2 H3. apply run_raises; [exact Hr|discriminate|]. unfold parse_callback, reference. rewrite colon_has by (apply in_or_app; right; left; reflexivity).
  rewrite split_char_app by exact H1. rewrite split_char_app by exact H2. rewrite split_char_no by exact H3. reflexivity.
Qed.
Lemma unnamed date loop r id restart w : changed r = false -> snd (run date loop r (Callable id false) restart w) = Raise AttributeError.
Proof. intros Hr. rewrite (unchanged_run _ _ _ _ _ _ Hr), (unchanged_body _ _ _ _ _ _ Hr). reflexivity. Qed.
(** A text without a colon, or a function that the file lacks: no callback, no exception. *)
Lemma ignored_word date loop r t restart w u : no_colon t -> snd (run date loop r (Named t) restart w) = Ok u -> used_callback u = None.
Proof.
  intros Ht H. pose proof (run_callback _ _ _ _ _ _ _ _ H eq_refl) as E. unfold parse_callback in E. rewrite (no_colon_has _ Ht) in E. congruence.
Qed.

(** ** Directories *)
Lemma absolute_config date loop config cb restart w d1 d2 : absolute config = true ->
  snd (command date loop config cb restart (change_dir d1 w)) = snd (command date loop config cb restart (change_dir d2 w)).
Proof.
  intros Ha. unfold command, construct, resolve. rewrite Ha. cbn [change_dir cwd disk].
  destruct (disk w (names config)) as [f|]; [|destruct (text_eqb _ _); reflexivity].
  rewrite !unchanged_run by reflexivity. reflexivity.
Qed.
Lemma in_directory date loop n fname func restart w u f l : absolute n = false -> (exists x, names n = [x]) -> no_colon fname -> no_colon func -> fname <> [] ->
  disk w (resolve (cwd w) fname) = Some f -> as_module f = Ok l -> In func l ->
  snd (command date loop n (Some (reference fname func)) restart w) = Ok u ->
  used_callback u = Some (InFile (resolve (cwd w) fname) func).
Proof.
  intros Ha [x Hx] H1 H2 H3 Hf Hl Hin H. unfold command in H. destruct (construct w n) as [r|e] eqn:E; [|discriminate].
  assert (Hd : removelast (configfile r) = cwd w).
  { unfold construct in E. destruct (disk w (resolve (cwd w) n)); [|destruct (text_eqb _ _); discriminate]. injection E as <-. cbn [configfile].
    unfold resolve. rewrite Ha, Hx. apply removelast_last. }
  pose proof (run_in_file date loop r fname func restart w u f l H1 H2 H3) as R. rewrite Hd in R. now apply R.
Qed.
Lemma no_default w name : disk w (resolve (cwd w) name) = None -> says_default name -> construct w name = Raise TypeError.
Proof. intros H1 H2. unfold construct. rewrite H1, H2, text_eqb_refl. reflexivity. Qed.
Lemma no_file w name : disk w (resolve (cwd w) name) = None -> ~ says_default name -> construct w name = Raise IOError.
Proof. intros H1 H2. unfold construct. rewrite H1. now rewrite (text_eqb_neq _ _ H2). Qed.
Lemma found w name f : disk w (resolve (cwd w) name) = Some f ->
  exists r, construct w name = Ok r /\ params r = as_config f /\ configfile r = resolve (cwd w) name.
Proof. intros H. unfold construct. rewrite H. eexists. repeat split. Qed.

(** ** Input files *)
Lemma isarray_iff g : isarray g = true <-> an_array g.
Proof. destruct g; cbn; split; intros H; try exact I; try reflexivity; try discriminate H; contradiction. Qed.
Lemma table_iff n g : (isarray g && negb (table n g))%bool = false <-> wide_enough n g.
Proof.
  destruct g as [|t|q|q|l|r c v]; cbn; split; intros H; try exact I; try reflexivity; try discriminate H; try contradiction.
  - apply Nat.leb_le. destruct (n <=? c); [reflexivity|discriminate].
  - apply Nat.leb_le in H. now rewrite H.
Qed.
Lemma checked i : check_configuration i = Ok tt <-> acceptable i.
Proof.
  unfold check_configuration, acceptable. rewrite <- !isarray_iff, <- !table_iff.
  assert (L : conf_ny i = 0%nat <-> (0 <? conf_ny i) = false) by (rewrite Nat.ltb_ge; lia). rewrite L.
  generalize (isarray (xgrid i)) (isarray (bed i)) (isarray (ygrid i)) (0 <? conf_ny i) (isarray (wind i) && negb (table 3 (wind i)))%bool
    (isarray (tide i) && negb (table 2 (tide i)))%bool (isarray (meteo i) && negb (table 6 (meteo i)))%bool.
  intros [|] [|] [|] [|] [|] [|] [|]; cbn; intuition discriminate.
Qed.
Lemma rejected i : ~ acceptable i -> check_configuration i = Raise ValueError /\ set_up i = Raise ValueError.
Proof.
  intros H. assert (E : check_configuration i = Raise ValueError).
  { rewrite <- checked in H. unfold check_configuration in *. destruct (_ || _)%bool; [reflexivity|]. destruct (_ && _)%bool; [reflexivity|].
    destruct (_ && _)%bool; [reflexivity|]. destruct (_ && _)%bool; [reflexivity|]. contradiction H. reflexivity. }
  split; [exact E|]. unfold set_up. rewrite E. reflexivity.
Qed.
(** The y file is forgotten. *)
Lemma y_forgotten i t : set_up i = Ok t -> ygrid i = Absent -> rows t <> 1%nat -> forall a b, ty t a b = None.
Proof.
  unfold set_up. destruct (check_configuration i) as [ck|]; [|discriminate]. cbn [bind]. destruct (grid_size (xgrid i)) as [n|]; [|discriminate]. cbn [bind].
  destruct (assign _ _ (xgrid i)) as [x|]; [|discriminate]. cbn [bind]. intros H Hy Hr a b.
  rewrite Hy in H. destruct (fst n =? 1)%nat eqn:E.
  - cbn [bind] in H. destruct (assign _ _ (bed i)); [|discriminate]. injection H as <-. apply Nat.eqb_eq in E. contradiction.
  - cbn [assign bind] in H. destruct (assign _ _ (bed i)); [|discriminate]. injection H as <-. reflexivity.
Qed.
Lemma bed_same i t v : set_up i = Ok t -> bed i = Array2 (rows t) (cols t) v -> forall a b, (a < rows t)%nat -> (b < cols t)%nat -> tz t a b = Some (v a b).
Proof.
  unfold set_up. destruct (check_configuration i) as [ck|]; [|discriminate]. cbn [bind]. destruct (grid_size (xgrid i)) as [n|]; [|discriminate]. cbn [bind].
  destruct (assign _ _ (xgrid i)) as [x|]; [|discriminate]. cbn [bind].
  destruct (if (fst n =? 1)%nat then _ else _) as [y|]; [|discriminate]. cbn [bind]. intros H Hb.
  assert (T : rows t = fst n /\ cols t = snd n) by (destruct (assign _ _ (bed i)); [|discriminate]; injection H as <-; split; reflexivity).
  destruct T as [T1 T2]. rewrite T1, T2 in *. rewrite Hb in H. cbn [assign] in H. unfold fits in H. rewrite !Nat.eqb_refl in H. cbn [orb andb bind] in H. injection H as <-.
  cbn [tz]. intros a b La Lb. f_equal. f_equal; unfold pick.
  - destruct (Nat.eqb_spec (fst n) 1); [lia|reflexivity].
  - destruct (Nat.eqb_spec (snd n) 1); [lia|reflexivity].
Qed.
Lemma bed_line i t l : set_up i = Ok t -> bed i = Array1 l -> length l = cols t -> forall a b, (b < cols t)%nat -> tz t a b = nth_error l b.
Proof.
  unfold set_up. destruct (check_configuration i) as [ck|]; [|discriminate]. cbn [bind]. destruct (grid_size (xgrid i)) as [n|]; [|discriminate]. cbn [bind].
  destruct (assign _ _ (xgrid i)) as [x|]; [|discriminate]. cbn [bind].
  destruct (if (fst n =? 1)%nat then _ else _) as [y|]; [|discriminate]. cbn [bind]. intros H Hb Hl a b Lb.
  rewrite Hb in H. cbn [assign] in H. destruct (fits (length l) (snd n)); [|discriminate]. cbn [bind] in H. injection H as <-. cbn [cols tz] in *.
  unfold pick. destruct (Nat.eqb_spec (length l) 1); [|reflexivity]. f_equal. lia.
Qed.
Lemma grid_as_given i t : set_up i = Ok t ->
  (forall r c v, xgrid i = Array2 r c v -> rows t = r /\ cols t = c /\ forall a b, (a < r)%nat -> (b < c)%nat -> tx t a b = Some (v a b)) /\
  (forall l, xgrid i = Array1 l -> rows t = 1%nat /\ cols t = length l /\ forall b, (b < length l)%nat -> tx t 0%nat b = nth_error l b) /\
  (forall r c v w, xgrid i = Array2 r c v -> ygrid i = Array2 r c w -> forall a b, (a < r)%nat -> (b < c)%nat -> ty t a b = if (r =? 1)%nat then Some 0 else Some (w a b)).
Proof.
  unfold set_up. destruct (check_configuration i) as [ck|]; [|discriminate]. cbn [bind]. intros H.
  assert (P : forall n k, (k < n)%nat -> pick n k = k) by (intros n k L; unfold pick; destruct (Nat.eqb_spec n 1); lia).
  split; [|split].
  - intros r c v E. rewrite E in H. cbn [grid_size bind fst snd assign] in H. destruct (fits r r && fits c c)%bool; [|discriminate]. cbn [bind] in H. destruct (if (r =? 1)%nat then _ else _) as [y|]; [|discriminate]. cbn [bind] in H.
    destruct (assign r c (bed i)) as [z|]; [|discriminate]. injection H as <-. split; [reflexivity|]. split; [reflexivity|]. intros a b Ha Hb. cbn [tx]. rewrite !P by assumption. reflexivity.
  - intros l E. rewrite E in H. cbn [grid_size bind fst snd assign] in H. destruct (fits (length l) (length l)); [|discriminate]. cbn [bind Nat.eqb] in H.
    destruct (assign 1 (length l) (bed i)) as [z|]; [|discriminate]. injection H as <-. split; [reflexivity|]. split; [reflexivity|]. intros b Hb. cbn [tx]. rewrite P by assumption. reflexivity.
  - intros r c v w E F. rewrite E, F in H. cbn [grid_size bind fst snd assign] in H. destruct (fits r r && fits c c)%bool; [|discriminate]. cbn [bind] in H. intros a b Ha Hb. destruct (r =? 1)%nat; cbn [bind] in H;
      (destruct (assign r c (bed i)) as [z|]; [|discriminate]); injection H as <-; cbn [ty]; [reflexivity|]. rewrite !P by assumption. reflexivity.
Qed.
Lemma bed_mismatch i r c v n : acceptable i -> grid_size (xgrid i) = Ok n -> bed i = Array2 r c v ->
  (r <> 1 /\ r <> fst n)%nat \/ (c <> 1 /\ c <> snd n)%nat -> set_up i = Raise ValueError.
Proof.
  intros Ha Hn Hb Hm. apply checked in Ha. unfold set_up. rewrite Ha, Hn. cbn [bind].
  assert (X : forall g, assign (fst n) (snd n) g = Raise ValueError \/ exists x, assign (fst n) (snd n) g = Ok x).
  { intros g. destruct g; cbn [assign]; try (right; eexists; reflexivity); try (left; reflexivity).
    - destruct (fits _ _); [right; eexists; reflexivity|left; reflexivity].
    - destruct (_ && _)%bool; [right; eexists; reflexivity|left; reflexivity]. }
  destruct (X (xgrid i)) as [E|[x E]]; rewrite E; [reflexivity|]. cbn [bind].
  assert (Y : (if (fst n =? 1)%nat then Ok (fun _ _ => Some 0%Q) else assign (fst n) (snd n) (ygrid i)) = Raise ValueError
    \/ exists y, (if (fst n =? 1)%nat then Ok (fun _ _ => Some 0%Q) else assign (fst n) (snd n) (ygrid i)) = Ok y).
  { destruct (fst n =? 1)%nat; [right; eexists; reflexivity|apply X]. }
  destruct Y as [F|[y F]]; rewrite F; [reflexivity|]. cbn [bind]. rewrite Hb. cbn [assign]. unfold fits.
  destruct Hm as [[A B]|[A B]].
  - rewrite (proj2 (Nat.eqb_neq _ _) A), (proj2 (Nat.eqb_neq _ _) B). reflexivity.
  - rewrite (proj2 (Nat.eqb_neq _ _) A), (proj2 (Nat.eqb_neq _ _) B). cbn [orb]. rewrite andb_false_r. reflexivity.
Qed.

(** ** Statistics *)
Lemma no_steps tstop counts : dget (txt "time") counts = None -> print_stats tstop counts = Raise ZeroDivisionError.
Proof. intros H. unfold print_stats, get_count. rewrite H. reflexivity. Qed.
Lemma average_too_small tstop dt counts n m : dget (txt "time") counts = Some n -> dget (txt "matrixsolve") counts = Some m ->
  (0 < dt)%Q -> number_of_steps 0 tstop dt n ->
  exists a b, print_stats tstop counts = Ok (a, b) /\ (a * inject_Z (Z.of_nat n) == inject_Z (Z.of_nat m))%Q /\ (b * inject_Z (Z.of_nat n) == tstop)%Q /\ (b < dt)%Q.
Proof.
  intros H1 H2 Hd [Hs [_ Hn]]. unfold print_stats, get_count. rewrite H1, H2. destruct (Nat.eqb_spec n 0); [lia|].
  assert (P : (0 < inject_Z (Z.of_nat n))%Q) by (change 0%Q with (inject_Z 0); rewrite <- Zlt_Qlt; lia).
  eexists; eexists. split; [reflexivity|]. split.
  - field. intros X. rewrite X in P. now apply Qlt_irrefl in P.
  - split; [field; intros X; rewrite X in P; now apply Qlt_irrefl in P|]. apply Qlt_shift_div_r; [exact P|]. lra.
Qed.

(** ** Hotstart files *)
Lemma dget_hot {V} k (v : V) st : dmem k (vals st) = true -> In k (ismutable st) ->
  dget k (vals (set_immutable k (setitem k v st))) = Some v /\ ~ In k (ismutable (set_immutable k (setitem k v st))).
Proof.
  intros Hm Hi. apply (proj2 (mem_true k (ismutable st))) in Hi. unfold setitem. rewrite Hm, Hi. cbn [negb orb].
  unfold set_mutable. cbn [vals ismutable]. rewrite Hi. unfold set_immutable. cbn [vals ismutable]. rewrite Hi. cbn [vals ismutable]. split; [apply dget_dset_same|].
  intros X. apply filter_In in X. destruct X as [_ X]. rewrite text_eqb_refl in X. discriminate.
Qed.

Lemma hot_other {V} k k' (v : V) st : k <> k' -> dget k' (vals (set_immutable k (setitem k v st))) = dget k' (vals st) /\
  (In k' (ismutable (set_immutable k (setitem k v st))) <-> In k' (ismutable st)).
Proof.
  intros Hn.
  assert (A : dget k' (vals (setitem k v st)) = dget k' (vals st) /\ (In k' (ismutable (setitem k v st)) <-> In k' (ismutable st))).
  { unfold setitem. destruct (_ || _)%bool; [|split; reflexivity]. unfold set_mutable. cbn [vals ismutable]. split; [apply dget_dset_other; congruence|].
    destruct (mem k (ismutable st)); [reflexivity|]. rewrite in_app_iff. cbn [In]. intuition congruence. }
  unfold set_immutable. destruct (mem k (ismutable (setitem k v st))); [|exact A]. cbn [vals ismutable]. split; [apply A|].
  rewrite filter_In. destruct A as [_ A]. rewrite A. rewrite (text_eqb_neq _ _ Hn). cbn [negb]. intuition.
Qed.
Lemma hot_kept fs : forall st st', load_hotstartfiles fs st = Ok st' -> forall k, ~ In k (map fst fs) ->
  dget k (vals st') = dget k (vals st) /\ (In k (ismutable st') <-> In k (ismutable st)).
Proof.
  induction fs as [|f fs IH]; intros st st' H k Hk; cbn [load_hotstartfiles] in H.
  - injection H as <-. split; reflexivity.
  - destruct (hotstart1 f st) as [st1|] eqn:E; [|discriminate]. cbn [bind] in H. cbn [map In] in Hk.
    destruct (IH _ _ H k (fun X => Hk (or_intror X))) as [A B]. rewrite A, B. unfold hotstart1 in E.
    destruct (dget (fst f) (vals st)) as [g|]; [|injection E as <-; split; reflexivity].
    destruct (_ =? _)%nat; [|discriminate]. injection E as <-. apply hot_other. intros X. apply Hk. now left.
Qed.
(** Each file replaces the values of its variable, which can then not be assigned any more. *)
Lemma hot_loaded fs : forall st st' k l g, NoDup (map fst fs) -> load_hotstartfiles fs st = Ok st' -> In (k, l) fs ->
  dget k (vals st) = Some g -> In k (ismutable st) ->
  dget k (vals st') = Some {| gshape := gshape g; gvals := l |} /\ length l = size g /\ ~ In k (ismutable st').
Proof.
  induction fs as [|f fs IH]; intros st st' k l g Hd H Hin Hg Hm; [contradiction|]. cbn [load_hotstartfiles] in H.
  destruct (hotstart1 f st) as [st1|] eqn:E; [|discriminate]. cbn [bind] in H. cbn [map] in Hd. apply NoDup_cons_iff in Hd. destruct Hd as [Hd1 Hd2].
  destruct Hin as [->|Hin].
  - unfold hotstart1 in E. cbn [fst snd] in E, Hd1. rewrite Hg in E. destruct (Nat.eqb_spec (length l) (fold_right Nat.mul 1%nat (gshape g))) as [L|]; [|discriminate].
    injection E as <-. assert (D : dmem k (vals st) = true) by (unfold dmem; now rewrite Hg).
    destruct (dget_hot k {| gshape := gshape g; gvals := l |} st D Hm) as [A B]. destruct (hot_kept _ _ _ H k Hd1) as [A' B']. rewrite A', B'. repeat split; assumption.
  - assert (N : fst f <> k).
    { intros X. apply Hd1. rewrite X. apply in_map_iff. exists (k, l). split; [reflexivity|exact Hin]. }
    assert (S1 : dget k (vals st1) = dget k (vals st) /\ (In k (ismutable st1) <-> In k (ismutable st))).
    { unfold hotstart1 in E. destruct (dget (fst f) (vals st)); [|injection E as <-; split; reflexivity]. destruct (_ =? _)%nat; [|discriminate]. injection E as <-. now apply hot_other. }
    destruct S1 as [S1 S2]. apply (IH st1 st' k l g Hd2 H Hin); [now rewrite S1|now rewrite S2].
Qed.
Lemma hot_size st k l g fs : dget k (vals st) = Some g -> length l <> size g -> load_hotstartfiles ((k, l) :: fs) st = Raise ValueError.
Proof.
  intros Hg Hl. cbn [load_hotstartfiles]. unfold hotstart1. cbn [fst snd]. rewrite Hg. unfold size in Hl. rewrite (proj2 (Nat.eqb_neq _ _) Hl). reflexivity.
Qed.
