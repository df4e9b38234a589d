(** What the properties of whole runs say. Nothing here uses the solver or the update of the bed. *)
From Verif Require Import Base Num Utils_Model Utils_Spec Bed_Spec Bed_Model Solver_Model Solver_Spec Run_Model.
Open Scope Q_scope.

(** A state that makes sense: nothing negative, all arrays as large as the grid, every layer with sand. *)
Definition sound_layers (nf : nat) (m : list (list Q)) : Prop := m <> [] /\ shaped nf m /\ nonneg_bed m /\ forall l, In l m -> 0 < qsum l.
Definition sound_state (nf : nat) (k : cfg) (s : state) : Prop :=
  length (air s) = nf /\ (forall a, In a (air s) -> Solver_Spec.all_nonneg (number_of_cells k) a) /\
  length (sand s) = number_of_cells k /\ forall c, In c (sand s) -> sound_layers nf (Bed_Model.mass c).
(** A configuration of the solver 'trunk', fully implicit, and of the bed. *)
Definition sound_setup (nf : nat) (k : cfg) (e : setup) : Prop :=
  sensible k /\ trunk k = true /\ alpha k == 1 /\ 0 < Solver_Model.max_error k /\ 0 <= bi e /\ bi e <= 1 /\ length (grains e) = nf /\ Utils_Spec.all_nonneg (grains e) /\ (1 <= nf)%nat /\
  (forall j, length (base e j) = nf /\ distribution (base e j)) /\ process_bedupdate (bedp e) = true /\ 0 < rhog (bedp e) * (1 - porosity (bedp e)).
(** Onshore wind over a rectangular grid whose cells have the areas [g]; the capacity over moving and resting sand is the same; the linear solver is exact. *)
Definition fair_wind (sp : (nat -> nat -> Q) -> (nat -> Q) -> nat -> Q) (k : cfg) (g : nat -> nat -> Q) (w : wind) : Prop :=
  rectangular k (speed w) /\ lateral_uniform k (speed w) /\ onshore_wind k (speed w) /\ no_side_wind_in_1d k (speed w) /\ quiet_ends k (speed w) /\ nonnegative_ends k (speed w) /\
  exact_solver (number_of_cells k) (matrix k (speed w)) sp /\
  (forall r c, (r <= ny k)%nat -> (c <= nx k)%nat -> area (speed w) r c == g r c) /\
  forall i, (i < number_of_cells k)%nat -> 0 <= wCu w i /\ 0 <= wCu0 w i /\ wCuf w i == wCu w i.
Definition fair_weather (sp : (nat -> nat -> Q) -> (nat -> Q) -> nat -> Q) (nf : nat) (k : cfg) (g : nat -> nat -> Q) (weather : list (option (list wind))) : Prop :=
  forall ws, In (Some ws) weather -> length ws = nf /\ forall w, In w ws -> fair_wind sp k g w.
(** The exchange in a step is less than the top layer, when it is a deposit, and not more than any layer. *)
Definition moderate (cs : list bedcell) (os : list outcome) : Prop :=
  forall j c, nth_error cs j = Some c ->
    (forall l, In l (Bed_Model.mass c) -> qabs (net_deposit (picked os j)) <= qsum l) /\ net_deposit (picked os j) < qsum (hd [] (Bed_Model.mass c)).
(** A step without wind has no outcomes. *)
Definition smooth (cs : list bedcell) (os : list outcome) : Prop := os = [] \/ (forall o, In o os -> converged o = true) /\ moderate cs os.

(** Sand in the bed, above some level, and in the air over the inner cells. *)
Definition level (s : state) (j : nat) : Q := match nth_error (sand s) j with Some c => zb c | None => 0 end.
Definition content (k : cfg) (e : setup) (g : nat -> nat -> Q) (s : state) : Q :=
  over_inside k (fun r c => g r c * (rhog (bedp e) * (1 - porosity (bedp e)) * level s (r * S (nx k) + c)%nat + qsum (map (fun a => at_cell k a r c) (air s)))).
(** Sand that the wind carries into the inner cells, less what it carries out, in one step and in a run. *)
Definition blown_step (k : cfg) (ws : list wind) (os : list outcome) : Q := qsum (map2 (fun w o => through_ends k (speed w) (ct o)) ws os).
Definition blown (k : cfg) (weather : list (option (list wind))) (trace : list (list outcome)) : Q :=
  qsum (map2 (fun x os => match x with Some ws => blown_step k ws os | None => 0 end) weather trace).
(** The number of steps with wind. *)
Definition windy (weather : list (option (list wind))) : nat := length (filter (fun x => match x with Some _ => true | None => false end) weather).
(** The layers of two beds have the same masses. *)
Definition same_layers (cs cs' : list bedcell) : Prop :=
  Forall2 (fun c c' => same (layer_masses (Bed_Model.mass c')) (layer_masses (Bed_Model.mass c))) cs cs'.

(** A wind that is uniform and limited: no concentration that it can carry or bring exceeds [M]. *)
Definition limited_wind (k : cfg) (M : Q) (w : wind) : Prop :=
  (exists u v, uniform_wind k (speed w) u v) /\ (forall i, (i < number_of_cells k)%nat -> wCu w i <= M) /\
  forall r, (r <= ny k)%nat ->
    prescribed (offshore k) (offshore_flux k) (constant_offshore_flux k) (at_cell k (wCu0 w) r 0) (uu (speed w) r 0%nat) <= M /\
    prescribed (onshore k) (onshore_flux k) (constant_onshore_flux k) (at_cell k (wCu0 w) r (nx k)) (uu (speed w) r (nx k)) <= M.
Definition limited_weather (k : cfg) (M : Q) (weather : list (option (list wind))) : Prop := forall ws, In (Some ws) weather -> forall w, In w ws -> limited_wind k M w.
Definition limited_air (k : cfg) (M : Q) (s : state) : Prop := forall a, In a (air s) -> forall i, (i < number_of_cells k)%nat -> a i <= M.
(** All layers have the same mass. *)
Definition equal_layers (L : Q) (s : state) : Prop := forall c, In c (sand s) -> forall l, In l (Bed_Model.mass c) -> qsum l == L.
