(** Concrete cases for properties C101-C105. *)
From Verif Require Import Base State_Model State_Spec State_Cases Config_Model Netcdf_Text Netcdf_Model Netcdf_Spec Netcdf_Proofs.

Lemma c102_back : forall A (file : dict (list (array A))) var slices i m a n r ix,
    dget var file = Some slices -> nth_error slices i = Some m -> well_shaped m ->
    ashape m = a :: n :: r -> 0 < n -> ix = Z.of_nat i \/ ix = (Z.of_nat i - Z.of_nat (length slices))%Z ->
    exists rs, dump file var ix = Ok rs /\ Forall (fun row => length row = n) rs /\
      length rs = a * fold_right Nat.mul 1 r /\ load_as (ashape m) rs = Ok m.
Proof. intros A. exact c102_roundtrip. Qed.
Lemma c102_size : forall A (file : dict (list (array A))) var ix rs m sh,
    (exists slices, dget var file = Some slices /\ slice slices ix = Ok m) -> dump file var ix = Ok rs -> well_shaped m ->
    fold_right Nat.mul 1 sh <> fold_right Nat.mul 1 (ashape m) -> load_as sh rs = Raise ValueError.
Proof. intros A. exact c102_other_size. Qed.

(** A bed of one row of two cells, with two layers and three fractions, at two times. *)
Definition bed1 : array nat := {| ashape := [1; 2; 2; 3]; aflat := [1; 2; 3; 4; 5; 6; 7; 8; 9; 10; 11; 12] |}.
Definition bed2 : array nat := {| ashape := [1; 2; 2; 3]; aflat := [21; 22; 23; 24; 25; 26; 27; 28; 29; 30; 31; 32] |}.
Definition bed_file : dict (list (array nat)) := [(txt "zb", []); (txt "mass", [bed1; bed2])].
Lemma c102_case : well_shaped bed2 /\
  dump bed_file (txt "mass") (-1) = Ok [[21; 22]; [23; 24]; [25; 26]; [27; 28]; [29; 30]; [31; 32]] /\
  load_as [1; 2; 2; 3] [[21; 22]; [23; 24]; [25; 26]; [27; 28]; [29; 30]; [31; 32]] = Ok bed2 /\
  load_as [1; 2; 3; 3] [[21; 22]; [23; 24]; [25; 26]; [27; 28]; [29; 30]; [31; 32]] = Raise ValueError.
Proof. repeat split. Qed.

(** Two grids, one also as an average, a name that is no grid, and a grid that is not there. *)
Definition out_ex : dict (list (option text)) :=
  [(txt "zb", [None; Some (txt "avg")]); (txt "masspickup", [None]); (txt "mass", [Some (txt "var")]); (txt "Ct", [None])].
Definition known_ex : list text := [txt "zb"; txt "mass"; txt "x"; txt "y"].
Definition lines_ex : list text := [txt "        'zb',    # [m] Bed level"; txt "        'mass',  # [-]"; txt "}"].

Lemma run_ex : exists D f, initialize lines_ex (txt "2020-01-01") sizes_ex known_ex dimensions out_ex = Ok (D, f).
Proof.
  destruct (initialize lines_ex (txt "2020-01-01") sizes_ex known_ex dimensions out_ex) as [[D f]|e] eqn:E.
  - now exists D, f.
  - exfalso. revert E. vm_compute. discriminate.
Qed.
Lemma c101_case : sizes sizes_ex 2 4 3 5 /\
  is_ok (initialize lines_ex (txt "2020-01-01") sizes_ex known_ex dimensions out_ex) /\
  asked out_ex (txt "zb") (Some (txt "avg")) /\ In (txt "zb") known_ex /\ declared dims2 (txt "zb") /\
  file_dims dims2 = [txt "time"; txt "n"; txt "s"] /\ is_ok (initialize_grids sizes_ex).
Proof.
  split; [exact ex_sizes|]. split; [destruct run_ex as [D [f E]]; eexists; exact E|].
  split; [exists [None; Some (txt "avg")]; cbn; tauto|]. split; [cbn; tauto|]. split; [apply ex_declared|].
  split; [reflexivity|]. destruct (State_Proofs.grid_shapes _ _ _ _ _ ex_sizes) as [st [E _]]. now exists st.
Qed.
Lemma c101_other_case : asked_names known_ex dimensions out_ex = [txt "zb"; txt "zb_avg"; txt "mass_var"].
Proof. vm_compute. reflexivity. Qed.

Lemma c104_case : sizes sizes_ex 2 4 3 5 /\ NoDup (asked_names known_ex dimensions out_ex) /\
  (forall n, In n (asked_names known_ex dimensions out_ex) -> ~ In n reserved).
Proof.
  split; [exact ex_sizes|]. rewrite c101_other_case. split.
  - repeat (constructor; [cbn; intuition discriminate|]). constructor.
  - intros n [<-|[<-|[<-|[]]]]; cbn; intuition discriminate.
Qed.
Lemma c104_coordinate : exists p known outvars v ds, sizes p 2 4 3 5 /\ declared ds v /\ In v known /\ outvars = [(v, [None])] /\
  forall lines refdate, initialize lines refdate p known dimensions outvars = Raise RuntimeError.
Proof.
  exists sizes_ex, known_ex, [(txt "x", [None])], (txt "x"), dims2.
  split; [exact ex_sizes|]. split; [|split; [cbn; tauto|split; [reflexivity|]]].
  - exists (model_state_2d ++ initial_state_2d). split; [cbn; tauto|]. exists "x"%string. split; [cbn; tauto|reflexivity].
  - intros lines rd. apply (c104_clash lines rd sizes_ex 2 4 3 5 known_ex [(txt "x", [None])] (txt "x") ex_sizes).
    + assert (E : asked_names known_ex dimensions [(txt "x", [None])] = [txt "x"]) by (vm_compute; reflexivity).
      rewrite E. now left.
    + cbn. tauto.
Qed.
Lemma c104_each_case : sizes sizes_ex 2 4 3 5 /\ declared dims4 (txt "mass") /\ txt "mass" <> txt "x" /\ txt "mass" <> txt "y".
Proof. split; [exact ex_sizes|]. split; [apply ex_declared|]. split; discriminate. Qed.

(** ** C103 *)
Lemma c103_case : documents_cleanly (txt "        'zb',    # [m] Bed level") (txt "zb") (txt "m") /\
  parse_metadata lines_ex [txt "zb"; txt "mass"; txt "Ct"] =
    [(txt "zb", Some (txt "m")); (txt "mass", Some (txt "1")); (txt "Ct", None)].
Proof.
  split; [|reflexivity].
  exists (txt "        "), (txt "    "), (txt " "), (txt " Bed level").
  assert (B : forall n, blank (repeat " "%char n)).
  { intros n c Hc. apply repeat_spec in Hc. subst. cbn. tauto. }
  split; [exact (B 8)|]. split; [exact (B 4)|]. split; [exact (B 1)|].
  split; [split; cbn; intuition discriminate|]. split; [cbn; intuition discriminate|reflexivity].
Qed.
Lemma c103_found : exists line, In line constants_py /\ documents line (txt "gw") (txt "m").
Proof.
  exists (nth 56 constants_py []). split; [apply nth_In; cbn; lia|].
  exists (txt "        "), (txt "                         #NEWCH      # "), (txt " Groundwater level above reference").
  split; [intros c Hc; apply (repeat_spec 8) in Hc; subst; cbn; tauto|].
  split; [cbn; tauto|]. split; [cbn; intuition discriminate|]. split; [cbn; intuition discriminate|].
  split; [cbn; intuition discriminate|]. split; [cbn; intuition discriminate|]. reflexivity.
Qed.
Lemma c103_lost : exists v u line, In line constants_py /\ documents line v u /\
  forall vars, In v vars -> dget v (parse_metadata constants_py vars) = Some None.
Proof.
  destruct c103_found as [line [Hl Hd]]. exists (txt "gw"), (txt "m"), line. split; [exact Hl|]. split; [exact Hd|].
  intros vars Hv.
  assert (D : declared dims2 (txt "gw")).
  { exists (model_state_2d ++ initial_state_2d). split; [cbn; tauto|]. exists "gw"%string. split; [cbn; tauto|reflexivity]. }
  destruct (c103_table vars dims2 (txt "gw") D Hv) as [[_ E]|[C _]]; [exact E|]. exfalso. apply C. cbn. tauto.
Qed.
Lemma c103_table_case : declared dims4 (txt "mass") /\ ~ In (txt "mass") without_unit /\ declared dims2 (txt "zb").
Proof. split; [apply ex_declared|]. split; [cbn; intuition discriminate|apply ex_declared]. Qed.

Lemma c103_variance : exists lines refdate p known outvars D f v u, sizes p 2 4 3 5 /\
  initialize lines refdate p known dimensions outvars = Ok (D, f) /\ asked outvars (txt "zb") (Some (txt "var")) /\
  dget (txt "zb") (parse_metadata lines (dkeys outvars)) = Some (Some u) /\
  In v f /\ named (txt "zb") (Some (txt "var")) (vname v) /\ vunits v = Some u /\
  u <> statistic_unit (Some (txt "var")) u.
Proof.
  set (out := [(txt "zb", [Some (txt "var")])]).
  assert (E : exists D f, initialize lines_ex [] sizes_ex known_ex dimensions out = Ok (D, f)).
  { destruct (initialize lines_ex [] sizes_ex known_ex dimensions out) as [[D f]|e] eqn:E; [now exists D, f|].
    exfalso. revert E. vm_compute. discriminate. }
  destruct E as [D [f E]]. exists lines_ex, [], sizes_ex, known_ex, out, D, f.
  exists {| vname := txt "zb_var"; vdims := file_dims dims2; vunits := Some (txt "m"); vbounds := None |}, (txt "m").
  split; [exact ex_sizes|]. split; [exact E|]. split; [exists [Some (txt "var")]; cbn; tauto|]. split; [reflexivity|].
  split.
  - apply initialize_inv in E as [_ ->]. apply in_or_app. left. apply in_or_app. right.
    assert (A : asked out (txt "zb") (Some (txt "var"))) by (exists [Some (txt "var")]; cbn; tauto).
    assert (K : In (txt "zb") known_ex) by (cbn; tauto).
    assert (G : dget (txt "zb") dimensions = Some dims2) by (vm_compute; reflexivity).
    exact (in_requested known_ex dimensions (parse_metadata lines_ex (dkeys out)) out (txt "zb") (Some (txt "var")) dims2 A K G).
  - split; [right; exists (txt "var"); split; reflexivity|]. split; [reflexivity|discriminate].
Qed.

(** ** C105 *)
Lemma c105_transposed : forall lines refdate p known dims outvars D f,
  initialize lines refdate p known dims outvars = Ok (D, f) -> ~ cf_bounds f.
Proof.
  intros lines rd p known dims outvars D f E H. apply initialize_inv in E as [_ ->].
  destruct (H (fixed "x" ["n"; "s"] "m" (Some "x_bounds"))%string (txt "x_bounds") (fixed "x_bounds" ["s"; "n"; "nv"] "m" None)%string)
    as [d C].
  - apply in_or_app; left; apply in_or_app; left. cbn. tauto.
  - reflexivity.
  - apply in_or_app; left; apply in_or_app; left. cbn [fixed_vars In]. tauto.
  - reflexivity.
  - discriminate C.
Qed.
Lemma c105_transposed_ex : exists lines refdate p known dims outvars D f,
  initialize lines refdate p known dims outvars = Ok (D, f) /\ ~ cf_bounds f.
Proof.
  destruct run_ex as [D [f E]]. exists lines_ex, (txt "2020-01-01"), sizes_ex, known_ex, dimensions, out_ex, D, f.
  split; [exact E|]. eapply c105_transposed; exact E.
Qed.
Lemma c105_case : Forall (fun t => (Z.abs t <= 2 ^ 24)%Z) [3600; 7200; 10800]%Z /\
  time_bounds (run_axis [3600; 7200; 10800]%Z) = [(0, 3600); (3600, 7200); (7200, 10800)]%Z.
Proof. split; [repeat constructor; cbn; lia|reflexivity]. Qed.
(** Hourly output after eight and a half years: the stored end of the interval lies before the time. *)
Lemma c105_outside : exists ts b, Forall (fun t => (t mod 3600 = 0)%Z) ts /\
  time_bounds (run_axis ts) = [b] /\ times (run_axis ts) = ts /\ Forall (fun t => (snd b < t)%Z) ts /\
  time_bounds (run_axis ts) <> intervals 0 ts.
Proof.
  exists [268448400]%Z, (0, 268448384)%Z. split; [repeat constructor|]. split; [reflexivity|]. split; [reflexivity|].
  split; [repeat constructor|discriminate].
Qed.
Lemma c105_near_case : run_axis [268448400; 268452000]%Z =
  {| times := [268448400; 268452000]%Z; time_bounds := [(0, 268448384); (268448384, 268452000)]%Z |}.
Proof. reflexivity. Qed.

(** ** The units of the coordinates *)
Lemma create_all_nodup dims vs : forall f f', NoDup (names f) -> create_all dims vs f = Ok f' -> NoDup (names f').
Proof.
  induction vs as [|v vs IH]; intros f f' N H; cbn [create_all] in H.
  - injection H as <-. exact N.
  - destruct (create dims v f) as [f1|] eqn:E; [|discriminate]. cbn [bind] in H.
    apply create_inv in E as [-> [F _]]. apply (IH (f ++ [v]) f'); [|exact H]. rewrite names_app. now apply NoDup_snoc.
Qed.
Lemma initialize_nodup lines rd p known dims outvars D f : initialize lines rd p known dims outvars = Ok (D, f) -> NoDup (names f).
Proof.
  unfold initialize. destruct (nc_dims p) as [D'|]; [|discriminate]. cbn [bind].
  destruct (create_all D' (fixed_vars rd) []) as [f1|] eqn:E1; [|discriminate]. cbn [bind].
  destruct (create_all _ (flat_map _ _) f1) as [f2|] eqn:E2; [|discriminate]. cbn [bind].
  destruct (create _ _ f2) as [f3|] eqn:E3; [|discriminate]. cbn [bind].
  intros H. injection H as <- <-. apply create_all_nodup in E1; [|constructor]. apply create_all_nodup in E2; [|exact E1].
  apply create_inv in E3 as [-> [F _]]. rewrite names_app. now apply NoDup_snoc.
Qed.
Lemma names_unique f : NoDup (names f) -> forall v w, In v f -> In w f -> vname v = vname w -> v = w.
Proof.
  induction f as [|a f IH]; intros N v w Hv Hw E; [destruct Hv|]. cbn in N. apply NoDup_cons_iff in N as [N1 N2].
  destruct Hv as [->|Hv], Hw as [->|Hw]; auto.
  - destruct N1. rewrite E. now apply in_map.
  - destruct N1. rewrite <- E. now apply in_map.
Qed.
Lemma c103_coordinates : forall lines refdate p known dims outvars D f n u,
  initialize lines refdate p known dims outvars = Ok (D, f) -> In (n, u) (coordinate_units refdate) ->
  exists v, In v f /\ vname v = n /\ vunits v = Some u /\ forall v', In v' f -> vname v' = n -> v' = v.
Proof.
  intros lines rd p known dims outvars D f n u E H. pose proof (names_unique f (initialize_nodup _ _ _ _ _ _ _ _ E)) as U.
  apply initialize_inv in E as [_ E].
  assert (X : exists v, In v (fixed_vars rd) /\ vname v = n /\ vunits v = Some u).
  { assert (Y : forall k, option_map vname (nth_error (fixed_vars rd) k) = Some n ->
      option_map vunits (nth_error (fixed_vars rd) k) = Some (Some u) -> exists v, In v (fixed_vars rd) /\ vname v = n /\ vunits v = Some u).
    { intros k A B. destruct (nth_error (fixed_vars rd) k) as [v|] eqn:F; [|discriminate A]. apply nth_error_In in F. injection A as A. injection B as B. now exists v. }
    cbn [coordinate_units In] in H. destruct H as [H|[H|[H|[H|[H|[H|[H|[]]]]]]]]; injection H as <- <-.
    - apply (Y 2); reflexivity.
    - apply (Y 3); reflexivity.
    - apply (Y 5); reflexivity.
    - apply (Y 6); reflexivity.
    - apply (Y 7); reflexivity.
    - apply (Y 8); reflexivity.
    - apply (Y 13); reflexivity. }
  destruct X as [v [I [N V]]]. exists v. assert (J : In v f) by (rewrite E; apply in_or_app; left; apply in_or_app; now left).
  repeat split; auto. intros v' I' N'. apply U; congruence.
Qed.
Lemma c103_coordinates_case : exists D f, initialize lines_ex (txt "2020-01-01") sizes_ex known_ex dimensions out_ex = Ok (D, f) /\
  In (txt "time", txt "seconds since 2020-01-01") (coordinate_units (txt "2020-01-01")).
Proof. destruct run_ex as [D [f E]]. exists D, f. split; [exact E|]. cbn [coordinate_units In]. do 5 right. left. reflexivity. Qed.
