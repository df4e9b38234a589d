(** Concrete cases and counterexamples for the start of a run. *)
From Coq Require Import Lqa.
From Verif Require Import Base Num Config_Model State_Model Start_Model Start_Spec Start_Proofs.

Definition at_ (l : list string) : place := map txt l.
(** /home/u/runs/aeolis.txt (tstop = 7200, a callback of a file beside it), /home/u/runs/bar.py and /home/u/cb.py, each with a function add_bar;
    the working directory is /home/u. *)
Definition conf : file := {| as_config := [(txt "tstop", VInt 7200); (txt "callback", VNone)]; as_module := Raise NameError |}.
Definition script : file := {| as_config := []; as_module := Ok [txt "np"; txt "add_bar"] |}.
Definition home : world := {| cwd := at_ ["home"; "u"]%string; disk := fun p =>
  if place_eqb p (at_ ["home"; "u"; "runs"; "aeolis.txt"]%string) then Some conf
  else if place_eqb p (at_ ["home"; "u"; "runs"; "bar.py"]%string) then Some script
  else if place_eqb p (at_ ["home"; "u"; "cb.py"]%string) then Some script else None |}.
Definition smooth_run : world -> used -> result unit := fun _ _ => Ok tt.
Definition broken_run : world -> used -> result unit := fun _ _ => Raise ValueError.
Definition r0 : runner := {| configfile := at_ ["home"; "u"; "runs"; "aeolis.txt"]%string; changed := false; params := as_config conf |}.
(** The same runner after r.p['tstop'] = 60. *)
Definition edited : runner := {| configfile := configfile r0; changed := false; params := [(txt "tstop", VInt 60); (txt "callback", VNone)] |}.

Lemma case_params : exists u, snd (run (txt "today") smooth_run r0 NoCallback None home) = Ok u /\ dget (txt "tstop") (used_params u) = Some (VInt 7200).
Proof. eexists. split; reflexivity. Qed.
Lemma edit_lost : exists date loop r w u k, snd (run date loop r NoCallback None w) = Ok u /\ dget k (params r) <> dget k (used_params u).
Proof. exists (txt "today"), smooth_run, edited, home. eexists. exists (txt "tstop"). split; [reflexivity|]. vm_compute. discriminate. Qed.
Lemma case_set : [(txt "tstop", VInt 60)] <> [] /\ snd (run (txt "today") smooth_run (set_params [(txt "tstop", VInt 60)] r0) NoCallback None home) = Raise AttributeError.
Proof. split; [discriminate|vm_compute; reflexivity]. Qed.
Lemma case_backup : let w := fst (run (txt "today") smooth_run (set_params [(txt "tstop", VInt 60)] r0) NoCallback None home) in
  disk w (at_ ["home"; "u"; "runs"; "aeolis.txt~001"]%string) = Some conf /\ disk w (configfile r0) = Some conf /\
  disk home (at_ ["home"; "u"; "runs"; "aeolis.txt~001"]%string) = None.
Proof. vm_compute. repeat split; reflexivity. Qed.

Lemma case_function : exists u, snd (run (txt "today") smooth_run r0 (Callable (txt "f") true) None home) = Ok u /\ used_callback u = Some (Object (txt "f") true).
Proof. eexists. split; reflexivity. Qed.
Lemma nocolon_dec t : has_char ":" t = false -> no_colon t.
Proof. intros H X. rewrite (colon_has _ X) in H. discriminate. Qed.
Lemma case_in_file : no_colon (txt "bar.py") /\ no_colon (txt "add_bar") /\ txt "bar.py" <> [] /\
  exists u, snd (run (txt "today") smooth_run r0 (Named (reference (txt "bar.py") (txt "add_bar"))) None home) = Ok u /\
    used_callback u = Some (InFile (at_ ["home"; "u"; "runs"; "bar.py"]%string) (txt "add_bar")).
Proof.
  split; [apply nocolon_dec; reflexivity|]. split; [apply nocolon_dec; reflexivity|]. split; [discriminate|]. eexists. split; vm_compute; reflexivity.
Qed.
(** The same callback in the configuration file. *)
Definition called : runner := {| configfile := configfile r0; changed := false; params := [(txt "callback", VStr (reference (txt "bar.py") (txt "add_bar")))] |}.
Lemma case_configured : exists u, snd (run (txt "today") smooth_run called NoCallback None home) = Ok u /\
    used_callback u = Some (InFile (at_ ["home"; "u"; "runs"; "bar.py"]%string) (txt "add_bar")).
Proof. eexists. split; vm_compute; reflexivity. Qed.
(** The same for the command. *)
Definition conf2 : file := {| as_config := [(txt "tstop", VInt 7200); (txt "callback", VStr (reference (txt "bar.py") (txt "add_bar")))]; as_module := Raise NameError |}.
Definition barred : world := write_file (at_ ["home"; "u"; "runs"; "aeolis.txt"]%string) conf2 home.
Lemma case_command : disk barred (resolve (cwd barred) (txt "runs/aeolis.txt")) = Some conf2 /\
  dget (txt "callback") (as_config conf2) = Some (VStr (reference (txt "bar.py") (txt "add_bar"))) /\
  disk barred (resolve (removelast (resolve (cwd barred) (txt "runs/aeolis.txt"))) (txt "bar.py")) = Some script /\
  exists u, command (txt "today") smooth_run (txt "runs/aeolis.txt") None (Some []) barred = (barred, Ok u) /\ used_callback u <> None.
Proof.
  split; [vm_compute; reflexivity|]. split; [reflexivity|]. split; [vm_compute; reflexivity|]. eexists. split; [reflexivity|discriminate].
Qed.
Lemma case_missing : no_colon (txt "baz.py") /\ disk home (resolve (removelast (configfile r0)) (txt "baz.py")) = None /\
  snd (run (txt "today") smooth_run r0 (Named (reference (txt "baz.py") (txt "add_bar"))) None home) = Raise IOError.
Proof. split; [apply nocolon_dec; reflexivity|]. split; vm_compute; reflexivity. Qed.
(** A path of Windows. *)
Lemma case_drive : snd (run (txt "today") smooth_run r0 (Named (txt "C:/runs/bar.py:add_bar")) None home) = Raise ValueError.
Proof. vm_compute. reflexivity. Qed.
Lemma case_unnamed : snd (run (txt "today") smooth_run r0 (Callable (txt "partial(f)") false) None home) = Raise AttributeError.
Proof. reflexivity. Qed.
(** A misspelt function. *)
Lemma misspelt : exists date loop r w u fname func f l, snd (run date loop r (Named (reference fname func)) None w) = Ok u /\
  disk w (resolve (removelast (configfile r)) fname) = Some f /\ as_module f = Ok l /\ l <> [] /\ used_callback u = None.
Proof.
  exists (txt "today"), smooth_run, r0, home. eexists. exists (txt "bar.py"), (txt "addbar"), script. eexists. repeat split; try (vm_compute; reflexivity). discriminate.
Qed.
Lemma case_word : exists u, snd (run (txt "today") smooth_run r0 (Named (txt "add_bar")) None home) = Ok u /\ used_callback u = None.
Proof. eexists. split; vm_compute; reflexivity. Qed.
(** A path with a blank is read as a list. *)
Definition blank : runner := {| configfile := configfile r0; changed := false; params := [(txt "callback", VList [VStr (txt "my"); VStr (txt "bar.py:add_bar")])] |}.
Lemma blank_ignored : exists date loop r w u v, dget (txt "callback") (params r) = Some v /\ v <> VNone /\
  snd (run date loop r NoCallback None w) = Ok u /\ used_callback u = None.
Proof. exists (txt "today"), smooth_run, blank, home. eexists. eexists. repeat split; try (vm_compute; reflexivity). discriminate. Qed.

(** ** Directories *)
Lemma case_absolute : absolute (txt "/home/u/runs/aeolis.txt") = true /\
  is_ok (snd (command (txt "today") smooth_run (txt "/home/u/runs/aeolis.txt") (Some (txt "bar.py:add_bar")) None (change_dir (at_ ["tmp"]%string) home))).
Proof. split; [reflexivity|]. eexists. vm_compute. reflexivity. Qed.
(** A callback that exists where the command is given. *)
Lemma relative_callback : exists date loop config fname func w f l, disk w (resolve (cwd w) fname) = Some f /\ as_module f = Ok l /\ In func l /\
  is_ok (snd (command date loop config None None w)) /\ snd (command date loop config (Some (reference fname func)) None w) = Raise IOError.
Proof.
  exists (txt "today"), smooth_run, (txt "runs/aeolis.txt"), (txt "cb.py"), (txt "add_bar"), home, script. eexists. repeat split; try (vm_compute; reflexivity).
  - vm_compute. right. left. reflexivity.
  - eexists. vm_compute. reflexivity.
Qed.
Lemma relative_restart : exists date loop config restart w, exists_at w (resolve (cwd w) restart) = true /\ restart <> [] /\
  is_ok (snd (command date loop config None None w)) /\ snd (command date loop config None (Some restart) w) = Raise IOError.
Proof.
  exists (txt "today"), smooth_run, (txt "runs/aeolis.txt"), (txt "cb.py"), home. split; [vm_compute; reflexivity|]. split; [discriminate|]. split; [eexists; vm_compute; reflexivity|]. vm_compute. reflexivity.
Qed.
Definition inside : world := change_dir (at_ ["home"; "u"; "runs"]%string) home.
Lemma case_here : absolute (txt "aeolis.txt") = false /\ names (txt "aeolis.txt") = [txt "aeolis.txt"] /\
  exists u, snd (command (txt "today") smooth_run (txt "aeolis.txt") (Some (reference (txt "bar.py") (txt "add_bar"))) None inside) = Ok u /\
    used_callback u = Some (InFile (at_ ["home"; "u"; "runs"; "bar.py"]%string) (txt "add_bar")).
Proof. split; [reflexivity|]. split; [vm_compute; reflexivity|]. eexists. split; vm_compute; reflexivity. Qed.
Lemma case_cwd : exists w' u, run (txt "today") smooth_run r0 NoCallback None home = (w', Ok u) /\ cwd w' = at_ ["home"; "u"]%string.
Proof. eexists. eexists. split; vm_compute; reflexivity. Qed.
Lemma cwd_lost : exists date loop r w w' e, run date loop r NoCallback None w = (w', Raise e) /\ cwd w' <> cwd w.
Proof. exists (txt "today"), broken_run, r0, home. eexists. eexists. split; [vm_compute; reflexivity|]. vm_compute. discriminate. Qed.
Lemma case_left : exists w' e, run (txt "today") broken_run r0 NoCallback None home = (w', Raise e) /\ cwd w' = at_ ["home"; "u"; "runs"]%string.
Proof. eexists. eexists. split; vm_compute; reflexivity. Qed.
(** The next command with the same relative name then finds no file. *)
Lemma then_lost : exists date loop config w, construct w config <> Raise IOError /\ construct (fst (command date loop config None None w)) config = Raise IOError.
Proof. exists (txt "today"), broken_run, (txt "runs/aeolis.txt"), home. split; [vm_compute; discriminate|vm_compute; reflexivity]. Qed.
Lemma case_files : changed r0 = false /\ disk (fst (run (txt "today") broken_run r0 NoCallback None home)) (configfile r0) = Some conf.
Proof. split; vm_compute; reflexivity. Qed.

Lemma case_default : disk home (resolve (cwd home) (txt "Default")) = None /\ says_default (txt "Default") /\ construct home (txt "Default") = Raise TypeError.
Proof. repeat split; vm_compute; reflexivity. Qed.
Lemma case_nofile : ~ says_default (txt "aeolis.txt") /\ construct home (txt "aeolis.txt") = Raise IOError.
Proof. split; [vm_compute; discriminate|vm_compute; reflexivity]. Qed.
Lemma case_found : exists r, construct home (txt "runs/aeolis.txt") = Ok r /\ dget (txt "tstop") (params r) = Some (VInt 7200).
Proof. eexists. split; vm_compute; reflexivity. Qed.

(** ** Input files: a grid of two rows and two columns. *)
Definition xs : given := Array2 2 2 (fun _ j => inject_Z (Z.of_nat j)).
Definition ys : given := Array2 2 2 (fun i _ => inject_Z (Z.of_nat i)).
Definition zs : given := Array2 2 2 (fun i j => inject_Z (Z.of_nat (10 * i + j))).
Definition blowing : given := Array2 2 3 (fun _ _ => 10).
Definition good : inputs := {| xgrid := xs; ygrid := ys; bed := zs; wind := blowing; tide := Absent; wave := Absent; meteo := Absent; conf_ny := 0 |}.
Lemma case_good : acceptable good /\ exists t, set_up good = Ok t /\ rows t = 2%nat /\ tz t 1%nat 0%nat = Some (inject_Z 10) /\ ty t 1%nat 0%nat = Some (inject_Z 1).
Proof. split; [repeat split; try exact I; cbn; lia|]. eexists. repeat split; vm_compute; reflexivity. Qed.
Definition one_column : inputs := {| xgrid := xs; ygrid := ys; bed := zs; wind := Array1 [10]; tide := Absent; wave := Absent; meteo := Absent; conf_ny := 0 |}.
Lemma case_rejected : ~ acceptable one_column /\ set_up one_column = Raise ValueError.
Proof. split; [intros [_ [_ [_ [X _]]]]; exact X|vm_compute; reflexivity]. Qed.
Definition no_y : inputs := {| xgrid := xs; ygrid := Absent; bed := zs; wind := blowing; tide := Absent; wave := Absent; meteo := Absent; conf_ny := 0 |}.
Lemma case_no_y : exists t, set_up no_y = Ok t /\ rows t = 2%nat /\ ty t 1%nat 0%nat = None.
Proof. eexists. repeat split; vm_compute; reflexivity. Qed.
Lemma y_missing : exists i t, ygrid i = Absent /\ set_up i = Ok t /\ rows t <> 1%nat.
Proof. exists no_y. eexists. split; [reflexivity|]. split; [vm_compute; reflexivity|]. vm_compute. discriminate. Qed.
(** A wave file with one column, and a wind file that does not exist. *)
Definition odd : inputs := {| xgrid := xs; ygrid := ys; bed := zs; wind := Unread (txt "wnid.txt"); tide := Absent; wave := Array1 [1]; meteo := Absent; conf_ny := 0 |}.
Lemma misspelt_wind : exists i t name, wind i = Unread name /\ set_up i = Ok t.
Proof. exists odd. eexists. exists (txt "wnid.txt"). split; vm_compute; reflexivity. Qed.
Lemma unchecked_wave : exists i t l, wave i = Array1 l /\ set_up i = Ok t.
Proof. exists odd. eexists. exists [1%Q]. split; vm_compute; reflexivity. Qed.

(** The bed as one line of numbers. *)
Definition line : inputs := {| xgrid := xs; ygrid := ys; bed := Array1 [3; 4]; wind := blowing; tide := Absent; wave := Absent; meteo := Absent; conf_ny := 0 |}.
Lemma case_line : exists t, set_up line = Ok t /\ cols t = 2%nat /\ tz t 0%nat 1%nat = Some 4 /\ tz t 1%nat 1%nat = Some 4.
Proof. eexists. repeat split; vm_compute; reflexivity. Qed.
Lemma row_spread : exists i t l, bed i = Array1 l /\ set_up i = Ok t /\ length l <> (rows t * cols t)%nat /\ tz t 0%nat 1%nat = tz t 1%nat 1%nat.
Proof. exists line. eexists. exists [3; 4]. split; [reflexivity|]. split; [vm_compute; reflexivity|]. split; [vm_compute; discriminate|vm_compute; reflexivity]. Qed.
Lemma case_same : bed good = Array2 2 2 (fun i j => inject_Z (Z.of_nat (10 * i + j))) /\ exists t, set_up good = Ok t /\ tz t 1%nat 1%nat = Some (inject_Z 11).
Proof. split; [reflexivity|]. eexists. split; vm_compute; reflexivity. Qed.
Definition other_size : inputs := {| xgrid := xs; ygrid := ys; bed := Array2 3 2 (fun _ _ => 0); wind := blowing; tide := Absent; wave := Absent; meteo := Absent; conf_ny := 0 |}.
Lemma case_mismatch : acceptable other_size /\ grid_size (xgrid other_size) = Ok (2, 2)%nat /\ set_up other_size = Raise ValueError.
Proof. split; [repeat split; try exact I; cbn; lia|]. split; vm_compute; reflexivity. Qed.

(** ** Statistics: an hour in steps of a minute takes 61 steps. *)
Definition hour : dict nat := [(txt "time", 61%nat); (txt "matrixsolve", 122%nat)].
Lemma case_average : number_of_steps 0 3600 60 61 /\ exists a b, print_stats 3600 hour = Ok (a, b) /\ a == 2 /\ b < 60.
Proof. split; [unfold number_of_steps; split; [vm_compute; reflexivity|split; [vm_compute; discriminate|lia]]|]. eexists. eexists. split; [vm_compute; reflexivity|]. split; [vm_compute; reflexivity|]. vm_compute. reflexivity. Qed.
Lemma average_late : exists tstart tstop dt counts n a b, number_of_steps tstart tstop dt n /\ dget (txt "time") counts = Some n /\ print_stats tstop counts = Ok (a, b) /\ b > 2 * dt.
Proof.
  exists 7200, 10800, 60, hour, 61%nat. eexists. eexists. split; [unfold number_of_steps; split; [vm_compute; reflexivity|split; [vm_compute; discriminate|lia]]|]. split; [reflexivity|].
  split; [vm_compute; reflexivity|]. vm_compute. reflexivity.
Qed.
Lemma case_no_steps : print_stats 0 [] = Raise ZeroDivisionError.
Proof. reflexivity. Qed.

(** ** Hotstart files *)
Definition st0 : mstate Start_Model.grid := {| vals := [(txt "zb", {| gshape := [1; 3]%nat; gvals := [0; 0; 0] |}); (txt "Ct", {| gshape := [1; 3]%nat; gvals := [1; 1; 1] |})];
  ismutable := [txt "zb"; txt "Ct"] |}.
Lemma case_hot : exists st', load_hotstartfiles [(txt "zb", [1; 2; 3])] st0 = Ok st' /\ dget (txt "zb") (vals st') = Some {| gshape := [1; 3]%nat; gvals := [1; 2; 3] |} /\
  NoDup (map fst [(txt "zb", [1; 2; 3])]) /\ ismutable st' = [txt "Ct"].
Proof. eexists. split; [vm_compute; reflexivity|]. split; [reflexivity|]. split; [|reflexivity]. cbn. constructor; [intros []|constructor]. Qed.
Lemma case_hot_size : load_hotstartfiles [(txt "zb", [1; 2])] st0 = Raise ValueError.
Proof. vm_compute. reflexivity. Qed.
(** A misspelt file is not used. *)
Lemma case_hot_other : exists st', load_hotstartfiles [(txt "zbed", [1; 2; 3])] st0 = Ok st' /\ dget (txt "zb") (vals st') = dget (txt "zb") (vals st0).
Proof. eexists. split; vm_compute; reflexivity. Qed.

(** ** Parameters set by hand *)
Lemma set_none r : set_params [] r = r.
Proof. reflexivity. Qed.
Lemma set_kept kw : forall d k, ~ In k (map fst kw) -> dget k (fold_left (fun d kv => dset (fst kv) (snd kv) d) kw d) = dget (V := value) k d.
Proof. induction kw as [|[k' v'] kw IH]; intros d k H; cbn [fold_left]. reflexivity. rewrite IH by (intros Hk; apply H; right; exact Hk). apply dget_dset_other. intros ->. apply H. left. reflexivity. Qed.
Lemma set_values kw : forall d k v, NoDup (map fst kw) -> In (k, v) kw -> dget k (fold_left (fun d kv => dset (fst kv) (snd kv) d) kw d) = Some (v : value).
Proof.
  induction kw as [|[k' v'] kw IH]; intros d k v Hn H. destruct H. cbn [fold_left fst snd]. inversion Hn as [|? ? H1 H2]. destruct H as [E|H].
  - injection E as -> ->. rewrite set_kept by exact H1. apply dget_dset_same.
  - apply IH; assumption.
Qed.
Lemma params_set kw r k : NoDup (map fst kw) -> (forall v, In (k, v) kw -> dget k (params (set_params kw r)) = Some v) /\ (~ In k (map fst kw) -> dget k (params (set_params kw r)) = dget k (params r)).
Proof. intros Hn. destruct kw as [|kv kw]. split; [intros v [] | reflexivity]. split. intros v H. apply (set_values (kv :: kw) _ _ _ Hn H). intros H. apply (set_kept (kv :: kw) _ _ H). Qed.
Lemma nothing_set date loop r cb restart w : run date loop (set_params [] r) cb restart w = run date loop r cb restart w.
Proof. rewrite set_none. reflexivity. Qed.
Lemma case_params_set : dget (txt "tstop") (params (set_params [(txt "tstop", VInt 60); (txt "dt", VInt 5)] r0)) = Some (VInt 60) /\ dget (txt "callback") (params (set_params [(txt "tstop", VInt 60); (txt "dt", VInt 5)] r0)) = Some VNone /\ NoDup (map fst [(txt "tstop", VInt 60); (txt "dt", VInt 5)]).
Proof. split. vm_compute. reflexivity. split. vm_compute. reflexivity. cbn. repeat constructor; cbn; intuition discriminate. Qed.
Lemma case_nothing_set : exists u, snd (run (txt "today") smooth_run (set_params [] r0) NoCallback None home) = Ok u.
Proof. eexists. vm_compute. reflexivity. Qed.
