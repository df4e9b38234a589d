(** The weather follows its file: property C178. *)
From Verif Require Import Base Num Utils_Model Utils_Spec Hydro_Model Sea_Spec Weather_Model Weather_Spec Weather_Proofs.
From Coq Require Import QArith String List.
Import ListNotations.
Open Scope Q_scope.

(** C178. There are five quantities, and each is at all times what its column of the file says, whatever other columns there are. *)
Theorem C178_weather : forall t first rest, weather_file first rest ->
  map fst (meteo t (as_line first) (map as_line rest)) = map fst quantities /\
  forall name c, In (name, c) quantities -> (exists v, reads (in_column c first rest) t v) /\
    forall v, reads (in_column c first rest) t v -> value_of name (meteo t (as_line first) (map as_line rest)) v.
Proof. exact weather_read. Qed.
Print Assumptions C178_weather.
Example C178_weather_case : weather_file w1 [w2; w3] /\ reads (in_column 1 w1 [w2; w3]) 1800 12 /\ reads (in_column 5 w1 [w2; w3]) (7200 + 1800) 70 /\ In ("RH"%string, 3%nat) quantities.
Proof. exact c178_case. Qed.

(** C178. The function that reads several columns at once lies on the line between the points of each column, also without repetition. *)
Theorem C178_columns : forall t first rest k pre a b post, (k < length (snd first))%nat -> series (column k first :: map (column k) rest) -> column k first :: map (column k) rest = pre ++ a :: b :: post -> fst a <= t <= fst b ->
  exists w, nth_error (interp_array false t first rest) k = Some w /\ on_line a b t w.
Proof. exact array_inside. Qed.
Print Assumptions C178_columns.
Example C178_columns_case : (0 < length (snd (as_line w1)))%nat /\ series (column 0 (as_line w1) :: map (column 0) (map as_line [w2; w3])) /\
  column 0 (as_line w1) :: map (column 0) (map as_line [w2; w3]) = [] ++ (0, 10) :: (3600, 14) :: [(7199, 6)] /\ 0 <= 1800 <= 3600.
Proof. exact c178_inside_case. Qed.
