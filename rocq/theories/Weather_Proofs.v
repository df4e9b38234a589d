(** Lemmas and cases about the weather. *)
From Coq Require Import String QArith Lia Lqa List Bool Arith Sorting.
From Verif Require Import Base Num Utils_Model Utils_Spec Utils_Proofs Hydro_Model Sea_Spec Sea_Proofs Weather_Model Weather_Spec.
Import ListNotations.
Open Scope Q_scope.

Lemma column_series k row : column k (as_line row) = series_of (S k) row.
Proof. destruct row; [destruct k; reflexivity|reflexivity]. Qed.
Lemma columns_series k rows : map (column k) (map as_line rows) = map (series_of (S k)) rows.
Proof. rewrite map_map. apply map_ext. intros r. apply column_series. Qed.
Lemma any_column first rest c : weather_file first rest -> sorted_file (in_column c first rest).
Proof.
  intros (_ & _ & H). unfold sorted_file, in_column, Utils_Spec.series in *. cbn [fst snd map series_of] in *. rewrite map_map in *. exact H.
Qed.
(** The value at a place of the array. *)
Lemma array_nth circular t first rest k : (k < length (snd first))%nat ->
  nth_error (interp_array circular t first rest) k = Some ((if circular then interp_circular else interp) t (column k first) (map (column k) rest)).
Proof. intros H. unfold interp_array. rewrite nth_error_map, (nth_error_nth' (seq 0 (length (snd first))) 0%nat) by (rewrite seq_length; exact H). rewrite seq_nth by exact H. reflexivity. Qed.
Lemma array_read t first rest c : weather_file first rest -> (1 <= c)%nat -> (c < length first)%nat ->
  (exists v, reads (in_column c first rest) t v) /\
  forall v, reads (in_column c first rest) t v -> exists w, nth_error (interp_array true t (as_line first) (map as_line rest)) (c - 1) = Some w /\ w == v.
Proof.
  intros W C L. pose proof (any_column first rest c W) as Sf. split; [apply reads_total, Sf|]. intros v R. eexists. split.
  - apply array_nth. unfold as_line. cbn [snd]. destruct first; cbn in *; lia.
  - cbv beta iota. rewrite column_series, columns_series. replace (S (c - 1))%nat with c by lia. apply (reads_at (in_column c first rest) t v Sf R).
Qed.
Lemma array_length circular t first rest : length (interp_array circular t first rest) = length (snd first).
Proof. unfold interp_array. rewrite map_length, seq_length. reflexivity. Qed.
Lemma combine_nth_error {A B} (l : list A) (m : list B) k a b : nth_error l k = Some a -> nth_error m k = Some b -> nth_error (combine l m) k = Some (a, b).
Proof. revert m k. induction l as [|x l IH]; intros [|y m] [|k] H1 H2; try discriminate; cbn in *; [congruence|apply IH; assumption]. Qed.
Lemma combine_fst {A B} (l : list A) (m : list B) : (length l <= length m)%nat -> map fst (combine l m) = l.
Proof. revert m. induction l as [|x l IH]; intros [|y m] H; cbn in *; try lia; [reflexivity|reflexivity|]. rewrite IH by lia. reflexivity. Qed.
Lemma weather_read : forall t first rest, weather_file first rest ->
  map fst (meteo t (as_line first) (map as_line rest)) = map fst quantities /\
  forall name c, In (name, c) quantities -> (exists v, reads (in_column c first rest) t v) /\
    forall v, reads (in_column c first rest) t v -> value_of name (meteo t (as_line first) (map as_line rest)) v.
Proof.
  intros t first rest W. assert (L : (6 <= length first)%nat) by apply W. split.
  - unfold meteo. rewrite combine_fst; [reflexivity|]. rewrite array_length. unfold as_line. cbn [snd]. destruct first; cbn in *; lia.
  - intros name c Hc. assert (C : (1 <= c <= 5)%nat /\ nth_error symbols (c - 1) = Some name).
    { cbn in Hc. destruct Hc as [E|[E|[E|[E|[E|[]]]]]]; inversion E; subst; cbn; split; auto; lia. }
    destruct C as [C Sy]. destruct (array_read t first rest c W ltac:(lia) ltac:(lia)) as [X Y]. split; [exact X|]. intros v R. destruct (Y v R) as (w & Ew & E). exists w. split; [|exact E].
    apply (nth_error_In _ (c - 1)). apply combine_nth_error; assumption.
Qed.
Lemma weather_kept : forall t first rest before, next_meteo true true t (Some (first, rest)) before = Some (meteo t first rest) /\
  next_meteo true true t None before = before /\ (forall file m, next_meteo false m t file before = before) /\ forall file p, next_meteo p false t file before = before.
Proof. intros. repeat split; intros; try reflexivity. destruct p; reflexivity. Qed.
(** Without circular, the same between the first and the last point; constant beyond. *)
Lemma array_inside : forall t first rest k pre a b post, (k < length (snd first))%nat -> series (column k first :: map (column k) rest) -> column k first :: map (column k) rest = pre ++ a :: b :: post -> fst a <= t <= fst b ->
  exists w, nth_error (interp_array false t first rest) k = Some w /\ on_line a b t w.
Proof.
  intros t first rest k pre a b post L S E (Ha & Hb). eexists. split; [apply array_nth, L|]. cbv beta iota.
  apply (interp_segment t (map (column k) rest) (fst (column k first)) (snd (column k first)) S pre a b post); [|exact Ha|exact Hb]. rewrite <- E. reflexivity.
Qed.
(** ** A file of three lines with seven columns: the last one is not used. *)
Definition w1 : list Q := [0; 10; 20; 0; 101; 80; 5].
Definition w2 : list Q := [3600; 14; 24; 1; 102; 60; 6].
Definition w3 : list Q := [7199; 6; 0; 3; 100; 90; 7].
Lemma c178_case : weather_file w1 [w2; w3] /\ reads (in_column 1 w1 [w2; w3]) 1800 12 /\ reads (in_column 5 w1 [w2; w3]) (7200 + 1800) 70 /\ In ("RH"%string, 3%nat) quantities.
Proof.
  split; [|split; [|split; [|cbn; tauto]]].
  - split; [cbn; lia|]. split; [intros r [<- | [<- | []]]; reflexivity|]. unfold Utils_Spec.series. cbn. repeat constructor.
  - exists 0%Z, 1800. split; [reflexivity|]. left. exists [], (0, 10), (3600, 14), [(7199, 6)]. split; [reflexivity|]. split; [split; discriminate|]. reflexivity.
  - exists (-1)%Z, 1800. split; [reflexivity|]. left. exists [], (0, 80), (3600, 60), [(7199, 90)]. split; [reflexivity|]. split; [split; discriminate|]. reflexivity.
Qed.
Lemma c178_kept_case : next_meteo true true 1800 (Some (as_line w1, map as_line [w2; w3])) None <> None.
Proof. discriminate. Qed.
Lemma c178_inside_case : (0 < length (snd (as_line w1)))%nat /\ series (column 0 (as_line w1) :: map (column 0) (map as_line [w2; w3])) /\
  column 0 (as_line w1) :: map (column 0) (map as_line [w2; w3]) = [] ++ (0, 10) :: (3600, 14) :: [(7199, 6)] /\ 0 <= 1800 <= 3600.
Proof. split; [cbn; lia|]. split; [unfold series; cbn; repeat constructor|]. split; [reflexivity|]. split; discriminate. Qed.
