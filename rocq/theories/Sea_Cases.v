(** Concrete cases of water level and waves. *)
From Coq Require Import QArith ZArith Lia Lqa List Bool Arith.
From Verif Require Import Base Num Utils_Model Utils_Spec Hydro_Model Hydro_Spec Hydro_Proofs Hydro_Cases Sea_Model Sea_Spec Sea_Proofs.
Import ListNotations.
Open Scope Q_scope.

(** The nearest point, the first one of several. *)
Fixpoint closest (p best : nat * nat) (l : list (nat * nat)) : nat * nat :=
  match l with [] => best | q :: r => closest p (if Z.ltb (distance2 q p) (distance2 best p) then q else best) r end.
Definition closest_of (l : list (nat * nat)) (p : nat * nat) : nat * nat := match l with [] => p | q :: r => closest p q r end.
Lemma closest_ok p l : forall best, In (closest p best l) (best :: l) /\ forall q, In q (best :: l) -> (distance2 (closest p best l) p <= distance2 q p)%Z.
Proof.
  induction l as [|a l IH]; intros best; cbn [closest]. split. left. reflexivity. intros q [<- | []]. lia. destruct (Z.ltb_spec (distance2 a p) (distance2 best p)) as [L | L].
  - destruct (IH a) as (A & B). split. destruct A as [<- | A]; [right; left; reflexivity | right; right; exact A]. intros q [<- | [<- | Hq]]. specialize (B a (or_introl eq_refl)). lia. apply B. left. reflexivity. apply B. right. exact Hq.
  - destruct (IH best) as (A & B). split. destruct A as [<- | A]; [left; reflexivity | right; right; exact A]. intros q [<- | [<- | Hq]]. apply B. left. reflexivity. specialize (B best (or_introl eq_refl)). lia. apply B. right. exact Hq.
Qed.
Lemma closest_nearest : nearest closest_of.
Proof. intros [|q l] p H; [contradiction|]. apply closest_ok. Qed.

(** Tide and waves halfway between two points of their files, in the fourth repetition of the wave file; a mask on the waves of the second cell. *)
Definition tidal2 : hydro := {| process_tide := true; tide_file := Some ((0, 0), [(3600, 1); (7200, 0)]); process_wave := true; wave_file := Some (((0, 1), [(599, 2)]), ((0, 8), [(599, 9)])); gamma := 1 # 2;
  process_runup := false; stockdon := fun _ _ => (0, 0, 0) |}.
Lemma c171_case : (forall s, tide_file tidal2 = Some s -> sorted_file s) /\ (forall s1 s2, wave_file tidal2 = Some (s1, s2) -> sorted_file s1 /\ sorted_file s2) /\
  reads ((0, 0), [(3600, 1); (7200, 0)]) 1800 (1 # 2) /\ reads ((0, 8), [(599, 9)]) 1800 8 /\
  map (fun c => (Qred (SWL c), Qred (Hs c), Qred (Tp c))) (interpolate tidal2 1800 [plain (-4) (1, 0); plain (-1) (1, 0); plain (-1) (1 # 2, 1); plain 2 (1, 0)]) = [(1 # 2, 1, 8); (1 # 2, 3 # 4, 8); (1 # 2, 11 # 8, 5); (1 # 2, 0, 8)].
Proof.
  split. intros s E. injection E as <-. repeat constructor. split. intros s1 s2 E. injection E as <- <-. split; repeat constructor.
  split. exists 0%Z, 1800. split. reflexivity. left. exists [], (0, 0), (3600, 1), [(7200, 0)]. split. reflexivity. split. split; discriminate. reflexivity.
  split. exists (-3)%Z, 0. split. reflexivity. left. exists [], (0, 8), (599, 9), []. split. reflexivity. split. split; discriminate. reflexivity.
  vm_compute. reflexivity.
Qed.

(** A row of six cells: water of a coupled model at both ends, the third cell from the sea low, the two after it high and dry. *)
Definition beach (mask : Q * Q) : cells := fun i j =>
  {| zb := match j with 0%nat | 1%nat | 2%nat | 5%nat => 0 | _ => 10 end; tide_mask := mask; wave_mask := mask; runup_mask := (1, 0); SWL := 0; Hs := 2; Tp := 8; R := 0; eta := 0; TWL := 0; DSWL := 0; Hsmix := 0;
     zs := match j with 0%nat => 5 | 5%nat => 1 | 1%nat | 2%nat => 0 | _ => 10 end |}.
Definition exchange : coupling := {| zs_ext := true; Hs_ext := true; Tp_ext := true |}.
Definition still : hydro := {| process_tide := true; tide_file := None; process_wave := true; wave_file := None; gamma := 1 # 2; process_runup := true; stockdon := fun h _ => (h / 10, h / 5, h * (3 # 10)) |}.
(** Still water levels, water levels, wave heights and total water levels of the first row. *)
Definition levels_of (n : nat) (g : option cells) : list (Q * Q * Q * Q) :=
  match g with Some f => map (fun j => (Qred (SWL (f 0%nat j)), Qred (zs (f 0%nat j)), Qred (Hs (f 0%nat j)), Qred (TWL (f 0%nat j)))) (seq 0 n) | None => [] end.
Lemma c172_case : nearest closest_of /\ no_tide_mask 0 5 (beach (1, 0)) /\ no_wave_mask 0 5 (beach (1, 0)) /\ wet (1 # 1000) (beach (1, 0) 0%nat 5%nat) /\ on_grid 0 5 (0%nat, 5%nat) /\
  levels_of 6 (interpolate_coupled still exchange closest_of 0 5 (1 # 1000) 0 (beach (1, 0))) =
    [(5, 5, 2, 28 # 5); (5, 5, 2, 28 # 5); (5, 5, 2, 28 # 5); (1, 10, 2, 8 # 5); (1, 10, 2, 8 # 5); (1, 1, 2, 8 # 5)].
Proof.
  split. apply closest_nearest. split. intros i j _. split; reflexivity. split. intros i j _. split; reflexivity. split. vm_compute. reflexivity. split. split; apply le_n. vm_compute. reflexivity.
Qed.
Lemma c172_steps_case : no_tide_mask 0 5 (beach (1, 0)) /\ wet (1 # 1000) (beach (1, 0) 0%nat 0%nat) /\ on_grid 0 5 (0%nat, 0%nat) /\ exists g', steps_coupled still exchange closest_of 0 5 (1 # 1000) [0; 60] (beach (1, 0)) = Some g'.
Proof.
  split. intros i j _. split; reflexivity. split. vm_compute. reflexivity. split. split; apply Nat.le_0_l. assert (H : match steps_coupled still exchange closest_of 0 5 (1 # 1000) [0; 60] (beach (1, 0)) with Some _ => true | None => false end = true) by (vm_compute; reflexivity).
  destruct (steps_coupled still exchange closest_of 0 5 (1 # 1000) [0; 60] (beach (1, 0))) as [g'|]; [exists g'; reflexivity | discriminate H].
Qed.
(** The mask is applied again in every step. *)
Lemma c172_mask : exists h x near ny nx eps t t' g g1 g2 i j, nearest near /\ on_grid ny nx (i, j) /\ Hs_ext x = true /\ Tp_ext x = true /\ interpolate_coupled h x near ny nx eps t g = Some g1 /\ interpolate_coupled h x near ny nx eps t' g1 = Some g2 /\
  Hs (g i j) == 2 /\ wave_mask (g i j) = (1 # 2, 0) /\ Hs (g1 i j) == 1 /\ Hs (g2 i j) == 1 # 2 /\ SWL (g1 i j) == 5 # 2 /\ SWL (g2 i j) == 5 # 4.
Proof.
  assert (H : match interpolate_coupled still exchange closest_of 0 0 (1 # 1000) 0 (beach (1 # 2, 0)) with None => false | Some g1 => match interpolate_coupled still exchange closest_of 0 0 (1 # 1000) 60 g1 with None => false | Some g2 =>
    Qeq_bool (Hs (g1 0%nat 0%nat)) 1 && (Qeq_bool (Hs (g2 0%nat 0%nat)) (1 # 2) && (Qeq_bool (SWL (g1 0%nat 0%nat)) (5 # 2) && Qeq_bool (SWL (g2 0%nat 0%nat)) (5 # 4))) end end = true) by (vm_compute; reflexivity).
  destruct (interpolate_coupled still exchange closest_of 0 0 (1 # 1000) 0 (beach (1 # 2, 0))) as [g1|] eqn:E1; [|discriminate H]. destruct (interpolate_coupled still exchange closest_of 0 0 (1 # 1000) 60 g1) as [g2|] eqn:E2; [|discriminate H].
  apply andb_prop in H. destruct H as (H1 & H). apply andb_prop in H. destruct H as (H2 & H). apply andb_prop in H. destruct H as (H3 & H4).
  exists still, exchange, closest_of, 0%nat, 0%nat, (1 # 1000), 0, 60, (beach (1 # 2, 0)), g1, g2, 0%nat, 0%nat. split. apply closest_nearest. split. split; apply Nat.le_0_l. do 2 (split; [reflexivity|]). split. exact E1. split. exact E2. do 2 (split; [reflexivity|]). repeat split; apply Qeq_bool_iff; assumption.
Qed.
(** The still water level of a dry cell changes although nothing was exchanged: a low dry cell is flooded by the first step and is the nearest wet cell in the second. *)
Lemma c172_dry : exists h x near ny nx eps t t' g g1 g2 i j, nearest near /\ on_grid ny nx (i, j) /\ no_tide_mask ny nx g /\ zs_ext x = true /\ interpolate_coupled h x near ny nx eps t g = Some g1 /\ interpolate_coupled h x near ny nx eps t' g1 = Some g2 /\
  SWL (g1 i j) == 1 /\ SWL (g2 i j) == 5.
Proof.
  assert (H : match interpolate_coupled still exchange closest_of 0 5 (1 # 1000) 0 (beach (1, 0)) with None => false | Some g1 => match interpolate_coupled still exchange closest_of 0 5 (1 # 1000) 60 g1 with None => false | Some g2 =>
    Qeq_bool (SWL (g1 0%nat 3%nat)) 1 && Qeq_bool (SWL (g2 0%nat 3%nat)) 5 end end = true) by (vm_compute; reflexivity).
  destruct (interpolate_coupled still exchange closest_of 0 5 (1 # 1000) 0 (beach (1, 0))) as [g1|] eqn:E1; [|discriminate H]. destruct (interpolate_coupled still exchange closest_of 0 5 (1 # 1000) 60 g1) as [g2|] eqn:E2; [|discriminate H].
  apply andb_prop in H. destruct H as (H1 & H2).
  exists still, exchange, closest_of, 0%nat, 5%nat, (1 # 1000), 0, 60, (beach (1, 0)), g1, g2, 0%nat, 3%nat. split. apply closest_nearest. split. split; cbn; lia. split. intros i j _. split; reflexivity. split. reflexivity. split. exact E1. split. exact E2. split; apply Qeq_bool_iff; assumption.
Qed.
(** With the period only from the coupled model the wave file is not read. *)
Lemma c172_period : exists h x near ny nx eps t g g' i j s v, nearest near /\ on_grid ny nx (i, j) /\ process_wave h = true /\ Hs_ext x = false /\ Tp_ext x = true /\ zs_ext x = false /\ wave_file h = Some s /\ reads (fst s) t v /\ 0 < v /\
  unmasked (wave_mask (g i j)) /\ interpolate_coupled h x near ny nx eps t g = Some g' /\ zb (g' i j) < SWL (g' i j) /\ Hs (g i j) == 0 /\ Hs (g' i j) == 0.
Proof.
  exists tidal2, {| zs_ext := false; Hs_ext := false; Tp_ext := true |}, closest_of, 0%nat, 2%nat, (1 # 1000), 0, (fun _ _ => plain (-4) (1, 0)). eexists. exists 0%nat, 0%nat. do 2 eexists. split. apply closest_nearest. split. split; apply Nat.le_0_l. do 4 (split; [reflexivity|]). split. reflexivity.
  split. exists 0%Z, 0. split. reflexivity. left. exists [], (0, 1), (599, 2), []. split. reflexivity. split. split; discriminate. instantiate (1 := 1). reflexivity. split. reflexivity. split. split; reflexivity. split. reflexivity. repeat split; vm_compute; reflexivity.
Qed.
Lemma c172_row_case : exists c, interpolate tidal2 1800 [plain (-4) (1, 0)] = [c] /\ SWL c == 1 # 2.
Proof. eexists. split. reflexivity. vm_compute. reflexivity. Qed.
