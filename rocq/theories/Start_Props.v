(** The start and the end of a run: properties C124-C132. *)
From Verif Require Import Base Config_Model State_Model Start_Model Start_Spec Start_Proofs Start_Cases Start_Paths.
From Coq Require Import QArith List.
Import ListNotations.
Open Scope Q_scope.

(** C124. A run that succeeds uses the parameters of the configuration file, and nothing had been set with set_params. *)
Theorem C124_file : forall date loop r cb restart w u, snd (run date loop r cb restart w) = Ok u ->
  changed r = false /\ exists f, disk w (configfile r) = Some f /\ used_params u = as_config f.
Proof. exact run_params. Qed.
Print Assumptions C124_file.
Example C124_file_case : exists u, snd (run (txt "today") smooth_run r0 NoCallback None home) = Ok u /\ dget (txt "tstop") (used_params u) = Some (VInt 7200).
Proof. exact case_params. Qed.

(** A value that is put into the parameters directly is lost. *)
Theorem C124_direct_refuted : exists date loop r w u k, snd (run date loop r NoCallback None w) = Ok u /\ dget k (params r) <> dget k (used_params u).
Proof. exact edit_lost. Qed.
Print Assumptions C124_direct_refuted.

(** What is set is there, under each name; what is not set stays; setting nothing changes nothing. *)
Theorem C124_set_values : forall kw r k, NoDup (map fst kw) -> (forall v, In (k, v) kw -> dget k (params (set_params kw r)) = Some v) /\ (~ In k (map fst kw) -> dget k (params (set_params kw r)) = dget k (params r)).
Proof. exact params_set. Qed.
Print Assumptions C124_set_values.
Example C124_set_values_case : dget (txt "tstop") (params (set_params [(txt "tstop", VInt 60); (txt "dt", VInt 5)] r0)) = Some (VInt 60) /\ dget (txt "callback") (params (set_params [(txt "tstop", VInt 60); (txt "dt", VInt 5)] r0)) = Some VNone /\ NoDup (map fst [(txt "tstop", VInt 60); (txt "dt", VInt 5)]).
Proof. exact case_params_set. Qed.
Theorem C124_set_nothing : forall date loop r cb restart w, run date loop (set_params [] r) cb restart w = run date loop r cb restart w.
Proof. exact nothing_set. Qed.
Print Assumptions C124_set_nothing.
Example C124_set_nothing_case : exists u, snd (run (txt "today") smooth_run (set_params [] r0) NoCallback None home) = Ok u.
Proof. exact case_nothing_set. Qed.

(** With a parameter that was set with set_params no run succeeds. *)
Theorem C124_set_raises : forall date loop kw r cb restart w, kw <> [] ->
  snd (run date loop (set_params kw r) cb restart w) = Raise AttributeError \/ snd (run date loop (set_params kw r) cb restart w) = Raise ValueError.
Proof. exact set_raises. Qed.
Print Assumptions C124_set_raises.
Example C124_set_raises_case : [(txt "tstop", VInt 60)] <> [] /\ snd (run (txt "today") smooth_run (set_params [(txt "tstop", VInt 60)] r0) NoCallback None home) = Raise AttributeError.
Proof. exact case_set. Qed.

(** Before it fails the configuration file is copied; nothing else changes. *)
Theorem C124_set_backup : forall date loop kw r cb restart w f, kw <> [] -> disk w (configfile r) = Some f ->
  disk w (removelast (configfile r) ++ [backup_name (last (configfile r) []) 1]) = None ->
  snd (run date loop (set_params kw r) cb restart w) = Raise AttributeError /\
  (forall p, disk (fst (run date loop (set_params kw r) cb restart w)) p =
    if place_eqb p (removelast (configfile r) ++ [backup_name (last (configfile r) []) 1]) then Some f else disk w p).
Proof. exact set_backup. Qed.
Print Assumptions C124_set_backup.
Example C124_set_backup_case : let w := fst (run (txt "today") smooth_run (set_params [(txt "tstop", VInt 60)] r0) NoCallback None home) in
  disk w (at_ ["home"; "u"; "runs"; "aeolis.txt~001"]%string) = Some conf /\ disk w (configfile r0) = Some conf /\
  disk home (at_ ["home"; "u"; "runs"; "aeolis.txt~001"]%string) = None.
Proof. exact case_backup. Qed.

(** C125. A function that is passed is called. *)
Theorem C125_function : forall date loop r id restart w u, snd (run date loop r (Callable id true) restart w) = Ok u -> used_callback u = Some (Object id true).
Proof. exact run_function. Qed.
Print Assumptions C125_function.
Example C125_function_case : exists u, snd (run (txt "today") smooth_run r0 (Callable (txt "f") true) None home) = Ok u /\ used_callback u = Some (Object (txt "f") true).
Proof. exact case_function. Qed.

(** So is a function of a file. *)
Theorem C125_in_file : forall date loop r fname func restart w u f l, no_colon fname -> no_colon func -> fname <> [] ->
  disk w (resolve (removelast (configfile r)) fname) = Some f -> as_module f = Ok l -> In func l ->
  snd (run date loop r (Named (reference fname func)) restart w) = Ok u ->
  used_callback u = Some (InFile (resolve (removelast (configfile r)) fname) func).
Proof. exact run_in_file. Qed.
Print Assumptions C125_in_file.
Example C125_in_file_case : no_colon (txt "bar.py") /\ no_colon (txt "add_bar") /\ txt "bar.py" <> [] /\
  exists u, snd (run (txt "today") smooth_run r0 (Named (reference (txt "bar.py") (txt "add_bar"))) None home) = Ok u /\
    used_callback u = Some (InFile (at_ ["home"; "u"; "runs"; "bar.py"]%string) (txt "add_bar")).
Proof. exact case_in_file. Qed.

(** And one that the configuration file names. *)
Theorem C125_configured : forall date loop r fname func restart w u f l, no_colon fname -> no_colon func -> fname <> [] ->
  dget (txt "callback") (params r) = Some (VStr (reference fname func)) ->
  disk w (resolve (removelast (configfile r)) fname) = Some f -> as_module f = Ok l -> In func l ->
  snd (run date loop r NoCallback restart w) = Ok u ->
  used_callback u = Some (InFile (resolve (removelast (configfile r)) fname) func).
Proof. exact run_configured. Qed.
Print Assumptions C125_configured.
Example C125_configured_case : exists u, snd (run (txt "today") smooth_run called NoCallback None home) = Ok u /\
    used_callback u = Some (InFile (at_ ["home"; "u"; "runs"; "bar.py"]%string) (txt "add_bar")).
Proof. exact case_configured. Qed.

(** The command without a callback option calls the one of the configuration file. It needs no restart file; an empty name counts as none. *)
Theorem C125_command : forall date loop config restart w conf fname func f l, disk w (resolve (cwd w) config) = Some conf ->
  dget (txt "callback") (as_config conf) = Some (VStr (reference fname func)) -> no_colon fname -> no_colon func -> fname <> [] ->
  disk w (resolve (removelast (resolve (cwd w) config)) fname) = Some f -> as_module f = Ok l -> In func l -> restart = None \/ restart = Some [] ->
  (forall u, loop (change_dir (removelast (resolve (cwd w) config)) w) u = Ok tt) ->
  command date loop config None restart w =
    (w, Ok {| used_params := as_config conf; used_callback := Some (InFile (resolve (removelast (resolve (cwd w) config)) fname) func) |}).
Proof. exact command_configured. Qed.
Print Assumptions C125_command.
Example C125_command_case : disk barred (resolve (cwd barred) (txt "runs/aeolis.txt")) = Some conf2 /\
  dget (txt "callback") (as_config conf2) = Some (VStr (reference (txt "bar.py") (txt "add_bar"))) /\
  disk barred (resolve (removelast (resolve (cwd barred) (txt "runs/aeolis.txt"))) (txt "bar.py")) = Some script /\
  exists u, command (txt "today") smooth_run (txt "runs/aeolis.txt") None (Some []) barred = (barred, Ok u) /\ used_callback u <> None.
Proof. exact case_command. Qed.

(** A file that does not exist is reported. *)
Theorem C125_missing_file_raises : forall date loop r fname func restart w, changed r = false -> no_colon fname -> no_colon func ->
  disk w (resolve (removelast (configfile r)) fname) = None -> snd (run date loop r (Named (reference fname func)) restart w) = Raise IOError.
Proof. exact missing_file. Qed.
Print Assumptions C125_missing_file_raises.
Example C125_missing_file_raises_case : no_colon (txt "baz.py") /\ disk home (resolve (removelast (configfile r0)) (txt "baz.py")) = None /\
  snd (run (txt "today") smooth_run r0 (Named (reference (txt "baz.py") (txt "add_bar"))) None home) = Raise IOError.
Proof. exact case_missing. Qed.

(** A reference with two colons, as with the drive letters of Windows, is refused. *)
Theorem C125_drive_raises : forall date loop r a b c restart w, changed r = false -> no_colon a -> no_colon b -> no_colon c ->
  snd (run date loop r (Named (reference a (reference b c))) restart w) = Raise ValueError.
Proof. exact drive_letter. Qed.
Print Assumptions C125_drive_raises.
Example C125_drive_raises_case : snd (run (txt "today") smooth_run r0 (Named (txt "C:/runs/bar.py:add_bar")) None home) = Raise ValueError.
Proof. exact case_drive. Qed.

(** An object that can be called but has no name is refused. *)
Theorem C125_unnamed_raises : forall date loop r id restart w, changed r = false -> snd (run date loop r (Callable id false) restart w) = Raise AttributeError.
Proof. exact unnamed. Qed.
Print Assumptions C125_unnamed_raises.
Example C125_unnamed_raises_case : snd (run (txt "today") smooth_run r0 (Callable (txt "partial(f)") false) None home) = Raise AttributeError.
Proof. exact case_unnamed. Qed.

(** A misspelt function is ignored. *)
Theorem C125_misspelt_refuted : exists date loop r w u fname func f l, snd (run date loop r (Named (reference fname func)) None w) = Ok u /\
  disk w (resolve (removelast (configfile r)) fname) = Some f /\ as_module f = Ok l /\ l <> [] /\ used_callback u = None.
Proof. exact misspelt. Qed.
Print Assumptions C125_misspelt_refuted.

(** A text without a colon is ignored. *)
Theorem C125_word_ignored : forall date loop r t restart w u, no_colon t -> snd (run date loop r (Named t) restart w) = Ok u -> used_callback u = None.
Proof. exact ignored_word. Qed.
Print Assumptions C125_word_ignored.
Example C125_word_ignored_case : exists u, snd (run (txt "today") smooth_run r0 (Named (txt "add_bar")) None home) = Ok u /\ used_callback u = None.
Proof. exact case_word. Qed.

(** A configured callback with a blank in its path is ignored. *)
Theorem C125_blank_refuted : exists date loop r w u v, dget (txt "callback") (params r) = Some v /\ v <> VNone /\
  snd (run date loop r NoCallback None w) = Ok u /\ used_callback u = None.
Proof. exact blank_ignored. Qed.
Print Assumptions C125_blank_refuted.

(** C126. With an absolute path of the configuration file it does not matter where the command is given. *)
Theorem C126_absolute : forall date loop config cb restart w d1 d2, absolute config = true ->
  snd (command date loop config cb restart (change_dir d1 w)) = snd (command date loop config cb restart (change_dir d2 w)).
Proof. exact absolute_config. Qed.
Print Assumptions C126_absolute.
Example C126_absolute_case : absolute (txt "/home/u/runs/aeolis.txt") = true /\
  is_ok (snd (command (txt "today") smooth_run (txt "/home/u/runs/aeolis.txt") (Some (txt "bar.py:add_bar")) None (change_dir (at_ ["tmp"]%string) home))).
Proof. exact case_absolute. Qed.

(** The same of every path that begins with a slash. *)
Theorem C126_rooted : forall date loop rest cb restart w d1 d2,
  snd (command date loop ("/"%char :: rest) cb restart (change_dir d1 w)) = snd (command date loop ("/"%char :: rest) cb restart (change_dir d2 w)).
Proof. exact rooted_config. Qed.
Print Assumptions C126_rooted.
Example C126_rooted_case : txt "/home/u/runs/aeolis.txt" = "/"%char :: txt "home/u/runs/aeolis.txt" /\
  is_ok (snd (command (txt "today") smooth_run (txt "/home/u/runs/aeolis.txt") (Some (txt "bar.py:add_bar")) None (change_dir (at_ ["tmp"]%string) home))).
Proof. exact (conj eq_refl (proj2 case_absolute)). Qed.

(** A path stands for its names, from the root if it begins with a slash and from the working directory otherwise, however many slashes are between them. *)
Theorem C126_path : forall cwd k l, good_names l ->
  resolve cwd (written (S k) l) = l /\ (l <> [] -> resolve cwd (written 0 l) = cwd ++ l).
Proof. exact path_means. Qed.
Print Assumptions C126_path.
Example C126_path_case : good_names [txt "home"; txt "u"] /\ written 1 [txt "home"; txt "u"] = txt "/home//u//" /\ written 0 [txt "runs"] = txt "runs/".
Proof. exact case_path. Qed.

(** In the directory of the configuration file, callbacks are found from the working directory. *)
Theorem C126_here : forall date loop n fname func restart w u f l, absolute n = false -> (exists x, names n = [x]) -> no_colon fname -> no_colon func -> fname <> [] ->
  disk w (resolve (cwd w) fname) = Some f -> as_module f = Ok l -> In func l ->
  snd (command date loop n (Some (reference fname func)) restart w) = Ok u ->
  used_callback u = Some (InFile (resolve (cwd w) fname) func).
Proof. exact in_directory. Qed.
Print Assumptions C126_here.
Example C126_here_case : absolute (txt "aeolis.txt") = false /\ names (txt "aeolis.txt") = [txt "aeolis.txt"] /\
  exists u, snd (command (txt "today") smooth_run (txt "aeolis.txt") (Some (reference (txt "bar.py") (txt "add_bar"))) None inside) = Ok u /\
    used_callback u = Some (InFile (at_ ["home"; "u"; "runs"; "bar.py"]%string) (txt "add_bar")).
Proof. exact case_here. Qed.

(** Elsewhere they are not. *)
Theorem C126_callback_refuted : exists date loop config fname func w f l, disk w (resolve (cwd w) fname) = Some f /\ as_module f = Ok l /\ In func l /\
  is_ok (snd (command date loop config None None w)) /\ snd (command date loop config (Some (reference fname func)) None w) = Raise IOError.
Proof. exact relative_callback. Qed.
Print Assumptions C126_callback_refuted.

(** Nor are restart files. *)
Theorem C126_restart_refuted : exists date loop config restart w, exists_at w (resolve (cwd w) restart) = true /\ restart <> [] /\
  is_ok (snd (command date loop config None None w)) /\ snd (command date loop config None (Some restart) w) = Raise IOError.
Proof. exact relative_restart. Qed.
Print Assumptions C126_restart_refuted.

(** C127. After a run the working directory is what it was. *)
Theorem C127_restored : forall date loop r cb restart w w' u, run date loop r cb restart w = (w', Ok u) -> cwd w' = cwd w.
Proof. exact run_cwd. Qed.
Print Assumptions C127_restored.
Example C127_restored_case : exists w' u, run (txt "today") smooth_run r0 NoCallback None home = (w', Ok u) /\ cwd w' = at_ ["home"; "u"]%string.
Proof. exact case_cwd. Qed.

(** Not after an exception. *)
Theorem C127_exception_refuted : exists date loop r w w' e, run date loop r NoCallback None w = (w', Raise e) /\ cwd w' <> cwd w.
Proof. exact cwd_lost. Qed.
Print Assumptions C127_exception_refuted.

(** It is then that of the configuration file. *)
Theorem C127_left : forall date loop r cb restart w w' e, run date loop r cb restart w = (w', Raise e) -> cwd w' = removelast (configfile r).
Proof. exact run_left. Qed.
Print Assumptions C127_left.
Example C127_left_case : exists w' e, run (txt "today") broken_run r0 NoCallback None home = (w', Raise e) /\ cwd w' = at_ ["home"; "u"; "runs"]%string.
Proof. exact case_left. Qed.

(** The same command a second time then does not find its file. *)
Theorem C127_again_refuted : exists date loop config w, construct w config <> Raise IOError /\ construct (fst (command date loop config None None w)) config = Raise IOError.
Proof. exact then_lost. Qed.
Print Assumptions C127_again_refuted.

(** Starting a run changes no file as long as no parameter is set. *)
Theorem C127_files : forall date loop r cb restart w, changed r = false -> same_files w (fst (run date loop r cb restart w)).
Proof. exact run_files. Qed.
Print Assumptions C127_files.
Example C127_files_case : changed r0 = false /\ disk (fst (run (txt "today") broken_run r0 NoCallback None home)) (configfile r0) = Some conf.
Proof. exact case_files. Qed.

(** C128. The configuration file is read if it exists. *)
Theorem C128_found : forall w name f, disk w (resolve (cwd w) name) = Some f ->
  exists r, construct w name = Ok r /\ params r = as_config f /\ configfile r = resolve (cwd w) name.
Proof. exact found. Qed.
Print Assumptions C128_found.
Example C128_found_case : exists r, construct home (txt "runs/aeolis.txt") = Ok r /\ dget (txt "tstop") (params r) = Some (VInt 7200).
Proof. exact case_found. Qed.

(** The default configuration does not work. *)
Theorem C128_default_raises : forall w name, disk w (resolve (cwd w) name) = None -> says_default name -> construct w name = Raise TypeError.
Proof. exact no_default. Qed.
Print Assumptions C128_default_raises.
Example C128_default_raises_case : disk home (resolve (cwd home) (txt "Default")) = None /\ says_default (txt "Default") /\ construct home (txt "Default") = Raise TypeError.
Proof. exact case_default. Qed.

(** Any other missing file is reported. *)
Theorem C128_missing_raises : forall w name, disk w (resolve (cwd w) name) = None -> ~ says_default name -> construct w name = Raise IOError.
Proof. exact no_file. Qed.
Print Assumptions C128_missing_raises.
Example C128_missing_raises_case : ~ says_default (txt "aeolis.txt") /\ construct home (txt "aeolis.txt") = Raise IOError.
Proof. exact case_nofile. Qed.

(** C129. What is accepted. *)
Theorem C129_accepted : forall i, check_configuration i = Ok tt <-> acceptable i.
Proof. exact checked. Qed.
Print Assumptions C129_accepted.
Example C129_accepted_case : acceptable good /\ exists t, set_up good = Ok t /\ rows t = 2%nat /\ tz t 1%nat 0%nat = Some (inject_Z 10) /\ ty t 1%nat 0%nat = Some (inject_Z 1).
Proof. exact case_good. Qed.

(** Everything else is rejected with ValueError. *)
Theorem C129_rejected : forall i, ~ acceptable i -> check_configuration i = Raise ValueError /\ set_up i = Raise ValueError.
Proof. exact rejected. Qed.
Print Assumptions C129_rejected.
Example C129_rejected_case : ~ acceptable one_column /\ set_up one_column = Raise ValueError.
Proof. exact case_rejected. Qed.

(** A two-dimensional grid without y coordinates is accepted. *)
Theorem C129_no_y_refuted : exists i t, ygrid i = Absent /\ set_up i = Ok t /\ rows t <> 1%nat.
Proof. exact y_missing. Qed.
Print Assumptions C129_no_y_refuted.

(** All its y coordinates are then NaN. *)
Theorem C129_no_y_nan : forall i t, set_up i = Ok t -> ygrid i = Absent -> rows t <> 1%nat -> forall a b, ty t a b = None.
Proof. exact y_forgotten. Qed.
Print Assumptions C129_no_y_nan.
Example C129_no_y_nan_case : exists t, set_up no_y = Ok t /\ rows t = 2%nat /\ ty t 1%nat 0%nat = None.
Proof. exact case_no_y. Qed.

(** A wind file that does not exist is accepted. *)
Theorem C129_wind_name_refuted : exists i t name, wind i = Unread name /\ set_up i = Ok t.
Proof. exact misspelt_wind. Qed.
Print Assumptions C129_wind_name_refuted.

(** A wave file without periods is accepted. *)
Theorem C129_wave_refuted : exists i t l, wave i = Array1 l /\ set_up i = Ok t.
Proof. exact unchecked_wave. Qed.
Print Assumptions C129_wave_refuted.

(** C130. A bed file of the size of the grid is taken cell by cell. *)
Theorem C130_cells : forall i t v, set_up i = Ok t -> bed i = Array2 (rows t) (cols t) v -> forall a b, (a < rows t)%nat -> (b < cols t)%nat -> tz t a b = Some (v a b).
Proof. exact bed_same. Qed.
Print Assumptions C130_cells.
Example C130_cells_case : bed good = Array2 2 2 (fun i j => inject_Z (Z.of_nat (10 * i + j))) /\ exists t, set_up good = Ok t /\ tz t 1%nat 1%nat = Some (inject_Z 11).
Proof. exact case_same. Qed.

(** The grid has the size and the coordinates of the files of the grid; the y coordinates of a single row are zero. *)
Theorem C130_grid : forall i t, set_up i = Ok t ->
  (forall r c v, xgrid i = Array2 r c v -> rows t = r /\ cols t = c /\ forall a b, (a < r)%nat -> (b < c)%nat -> tx t a b = Some (v a b)) /\
  (forall l, xgrid i = Array1 l -> rows t = 1%nat /\ cols t = length l /\ forall b, (b < length l)%nat -> tx t 0%nat b = nth_error l b) /\
  (forall r c v w, xgrid i = Array2 r c v -> ygrid i = Array2 r c w -> forall a b, (a < r)%nat -> (b < c)%nat -> ty t a b = if (r =? 1)%nat then Some 0 else Some (w a b)).
Proof. exact grid_as_given. Qed.
Print Assumptions C130_grid.
Example C130_grid_case : bed good = Array2 2 2 (fun i j => inject_Z (Z.of_nat (10 * i + j))) /\ exists t, set_up good = Ok t /\ tz t 1%nat 1%nat = Some (inject_Z 11).
Proof. exact case_same. Qed.

(** A table of another size is refused, unless it has a single row or column. *)
Theorem C130_mismatch_raises : forall i r c v n, acceptable i -> grid_size (xgrid i) = Ok n -> bed i = Array2 r c v ->
  (r <> 1 /\ r <> fst n)%nat \/ (c <> 1 /\ c <> snd n)%nat -> set_up i = Raise ValueError.
Proof. exact bed_mismatch. Qed.
Print Assumptions C130_mismatch_raises.
Example C130_mismatch_raises_case : acceptable other_size /\ grid_size (xgrid other_size) = Ok (2, 2)%nat /\ set_up other_size = Raise ValueError.
Proof. exact case_mismatch. Qed.

(** A single line of numbers, written as a row or as a column, holds for every row. *)
Theorem C130_line : forall i t l, set_up i = Ok t -> bed i = Array1 l -> length l = cols t -> forall a b, (b < cols t)%nat -> tz t a b = nth_error l b.
Proof. exact bed_line. Qed.
Print Assumptions C130_line.
Example C130_line_case : exists t, set_up line = Ok t /\ cols t = 2%nat /\ tz t 0%nat 1%nat = Some 4 /\ tz t 1%nat 1%nat = Some 4.
Proof. exact case_line. Qed.

(** A bed file with too few numbers is accepted. *)
Theorem C130_too_few_refuted : exists i t l, bed i = Array1 l /\ set_up i = Ok t /\ length l <> (rows t * cols t)%nat /\ tz t 0%nat 1%nat = tz t 1%nat 1%nat.
Proof. exact row_spread. Qed.
Print Assumptions C130_too_few_refuted.

(** C131. With equal time steps from time zero the average number of matrix solves is right and the average time step too small. *)
Theorem C131_average : forall tstop dt counts n m, dget (txt "time") counts = Some n -> dget (txt "matrixsolve") counts = Some m ->
  (0 < dt)%Q -> number_of_steps 0 tstop dt n ->
  exists a b, print_stats tstop counts = Ok (a, b) /\ (a * inject_Z (Z.of_nat n) == inject_Z (Z.of_nat m))%Q /\ (b * inject_Z (Z.of_nat n) == tstop)%Q /\ (b < dt)%Q.
Proof. exact average_too_small. Qed.
Print Assumptions C131_average.
Example C131_average_case : number_of_steps 0 3600 60 61 /\ exists a b, print_stats 3600 hour = Ok (a, b) /\ a == 2 /\ b < 60.
Proof. exact case_average. Qed.

(** With a later start it can be too large. *)
Theorem C131_late_refuted : exists tstart tstop dt counts n a b, number_of_steps tstart tstop dt n /\ dget (txt "time") counts = Some n /\ print_stats tstop counts = Ok (a, b) /\ b > 2 * dt.
Proof. exact average_late. Qed.
Print Assumptions C131_late_refuted.

(** A run without a time step ends with an exception. *)
Theorem C131_no_step_raises : forall tstop counts, dget (txt "time") counts = None -> print_stats tstop counts = Raise ZeroDivisionError.
Proof. exact no_steps. Qed.
Print Assumptions C131_no_step_raises.
Example C131_no_step_raises_case : print_stats 0 [] = Raise ZeroDivisionError.
Proof. exact case_no_steps. Qed.

(** C132. A hotstart file replaces the values of its variable, which keeps its shape and is not assigned any more. *)
Theorem C132_loaded : forall fs, forall st st' k l g, NoDup (map fst fs) -> load_hotstartfiles fs st = Ok st' -> In (k, l) fs ->
  dget k (vals st) = Some g -> In k (ismutable st) ->
  dget k (vals st') = Some {| gshape := gshape g; gvals := l |} /\ length l = size g /\ ~ In k (ismutable st').
Proof. exact hot_loaded. Qed.
Print Assumptions C132_loaded.
Example C132_loaded_case : exists st', load_hotstartfiles [(txt "zb", [1; 2; 3])] st0 = Ok st' /\ dget (txt "zb") (vals st') = Some {| gshape := [1; 3]%nat; gvals := [1; 2; 3] |} /\
  NoDup (map fst [(txt "zb", [1; 2; 3])]) /\ ismutable st' = [txt "Ct"].
Proof. exact case_hot. Qed.

(** Other variables stay as they are. *)
Theorem C132_others : forall fs, forall st st', load_hotstartfiles fs st = Ok st' -> forall k, ~ In k (map fst fs) ->
  dget k (vals st') = dget k (vals st) /\ (In k (ismutable st') <-> In k (ismutable st)).
Proof. exact hot_kept. Qed.
Print Assumptions C132_others.
Example C132_others_case : exists st', load_hotstartfiles [(txt "zbed", [1; 2; 3])] st0 = Ok st' /\ dget (txt "zb") (vals st') = dget (txt "zb") (vals st0).
Proof. exact case_hot_other. Qed.

(** A file of another size is refused. *)
Theorem C132_size_raises : forall st k l g fs, dget k (vals st) = Some g -> length l <> size g -> load_hotstartfiles ((k, l) :: fs) st = Raise ValueError.
Proof. exact hot_size. Qed.
Print Assumptions C132_size_raises.
Example C132_size_raises_case : load_hotstartfiles [(txt "zb", [1; 2])] st0 = Raise ValueError.
Proof. exact case_hot_size. Qed.
