(** Independent specification vocabulary: which names are available. *)
From Coq Require Import String List.
From Verif Require Import Base State_Model Names_Model.
Import ListNotations.
Open Scope string_scope.

(** The parameter has a default value, or the program sets it. *)
Definition available (n : string) : Prop := In n default_config_names \/ In n (names_in param_stores).
(** Some line of the code reads the parameter. *)
Definition param_read (n : string) : Prop :=
  exists file entries line, In (file, entries) param_reads /\ In (line, n) entries.
(** Some line of the code reads the grid. *)
Definition grid_read (n : string) : Prop :=
  exists file entries line, In (file, entries) grid_reads /\ In (line, n) entries.
(** Parameters that have to be given, although nothing says so. *)
Definition without_default : list string := ["Cs"; "m"; "method_moist"].
(** Grids that the program creates when it needs them. *)
Definition created_later : list string :=
  ["fence_base"; "fence_top"; "fence_height_init"; "meteo"; "shear"].
(** Some line sets or changes the grid: reading is counted, since changes in place start with it. *)
Definition touched (n : string) : Prop :=
  grid_read n \/ In n (names_in grid_stores) \/ In n solver_results.
(** Declared grids that no line mentions. *)
Definition idle : list string := ["dzdry"; "taus_u"; "taun_u"; "dtaus"; "dtaun"].
(** A name in one of the tables of declared grids. *)
Definition in_state (n : string) : Prop := exists dims names, In (dims, names) MODEL_STATE /\ In n names.
