(** Proofs and counterexamples about the format of the weather file. *)
From Coq Require Import String QArith Qreals Reals.
From Verif Require Import Base Num Utils_Spec Sea_Spec Weather_Model Weather_Spec Weather_Proofs.
From Verif Require Import Moist_Model Moist_Spec Moist_Proofs Moist_Runup Moist_Cases Moist_More Rain_Spec Rain_Proofs Rain_Cases Capil_Spec Capil_Proofs Capil_Cases Meteo_Spec.
From Coq Require Import Lra.

Open Scope Q_scope.
(** The temperature is where it is documented. *)
Lemma temperature_read : forall t first rest, weather_file first rest -> forall v, reads (in_column 1 first rest) t v ->
  value_of "T" (Weather_Model.meteo t (as_line first) (map as_line rest)) v.
Proof. intros t first rest W v R. destruct (weather_read t first rest W) as [_ H]. destruct (H "T"%string 1%nat) as [_ X]; [cbn; tauto|]. apply X, R. Qed.
(** A dry summer day in the documented format: 20 degrees, no precipitation, humidity 80 %, 15 MJ/m2/day, 101 kPa. *)
Definition dry_line1 : list Q := [0; 20; 0; 80; 15; 101].
Definition dry_line2 : list Q := [3600; 20; 0; 80; 15; 101].
Lemma d_file : weather_file dry_line1 [dry_line2].
Proof. split; [cbn; lia|]. split; [intros r [<- | []]; reflexivity|]. unfold Utils_Spec.series. cbn. repeat constructor. Qed.
Lemma d_reads c : (1 <= c <= 5)%nat -> reads (in_column c dry_line1 [dry_line2]) 1800 (nth c dry_line1 0).
Proof.
  intros C. exists 0%Z, 1800. split; [reflexivity|]. left. exists [], (0, nth c dry_line1 0), (3600, nth c dry_line1 0), []. split.
  - destruct c as [|[|[|[|[|[|c]]]]]]; try lia; reflexivity.
  - split; [split; discriminate|]. destruct c as [|[|[|[|[|[|c]]]]]]; try lia; vm_compute; reflexivity.
Qed.
Lemma c194_columns_refuted : exists first rest t, weather_file first rest /\
  forall name c, In (name, c) documented_columns -> name <> "T"%string ->
    exists v, reads (in_column c first rest) t v /\ ~ value_of name (Weather_Model.meteo t (as_line first) (map as_line rest)) v.
Proof.
  exists dry_line1, [dry_line2], 1800. split; [exact d_file|]. intros name c I N. exists (nth c dry_line1 0). split.
  - apply d_reads. cbn in I. destruct I as [E|[E|[E|[E|[E|[]]]]]]; inversion E; lia.
  - intros (w & Iw & E). vm_compute in Iw. cbn in I.
    destruct I as [X|[X|[X|[X|[X|[]]]]]]; inversion X; subst; [congruence| | | | ];
      destruct Iw as [Y|[Y|[Y|[Y|[Y|[]]]]]]; inversion Y; subst; vm_compute in E; discriminate.
Qed.
(** The weather of the day, and what is made of it. *)
Definition dry_day : weather := {| temp := 20; rad := 15; pres := 101; hum := 80; rain := 0 |}.
Definition downpour : weather := {| temp := 20; rad := 0; pres := 15; hum := 101; rain := 80 |}.
Lemma is_value name d x q : value_of name d q -> Q2R q = x -> exists w, In (name, w) d /\ Q2R w = x.
Proof. intros (w & I & E) <-. exists w. split; [exact I|]. apply Qeq_eqR, E. Qed.
Lemma d_understood : understood (Weather_Model.meteo 1800 (as_line dry_line1) (map as_line [dry_line2])) downpour.
Proof.
  assert (X : forall name c, In (name, c) quantities -> value_of name (Weather_Model.meteo 1800 (as_line dry_line1) (map as_line [dry_line2])) (nth c dry_line1 0)).
  { intros name c I. destruct (weather_read 1800 dry_line1 [dry_line2] d_file) as [_ H]. destruct (H name c I) as [_ R]. apply R, d_reads. cbn in I. destruct I as [E|[E|[E|[E|[E|[]]]]]]; inversion E; lia. }
  unfold understood. cbv zeta. repeat split; eapply is_value.
  - apply (X "T"%string 1%nat). cbn. tauto.
  - unfold Q2R. cbn. Lra.lra.
  - apply (X "Q"%string 2%nat). cbn. tauto.
  - unfold Q2R. cbn. Lra.lra.
  - apply (X "RH"%string 3%nat). cbn. tauto.
  - unfold Q2R. cbn. Lra.lra.
  - apply (X "P"%string 4%nat). cbn. tauto.
  - unfold Q2R. cbn. Lra.lra.
  - apply (X "U"%string 5%nat). cbn. tauto.
  - unfold Q2R. cbn. Lra.lra.
Qed.
