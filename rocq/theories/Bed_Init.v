(** Lemmas and cases about a grain size distribution given as a matrix of integers. *)
From Coq Require Import QArith Lia Lqa List Bool Arith.
From Verif Require Import Base Num Utils_Model Utils_Spec Utils_Proofs Bed_Model Bed_Spec Bed_Proofs Bed_Cases.
Import ListNotations.
Open Scope Q_scope.

Lemma init_matrix rhog por nf nx x th rows bedcomp : length rows = nf -> (forall r, In r rows -> length r = S nx) -> (x <= nx)%nat ->
  exists b, initialize rhog por nf nx x th (Dist2 true rows) bedcomp = Ok b /\ length b = length th /\
    forall i t, nth_error th i = Some t -> exists l, nth_error b i = Some l /\ length l = nf /\ forall k r, nth_error rows k = Some r -> nth k l 0 == rhog * (1 - por) * t * (nth x r 0 / qsum (map qsum rows)).
Proof.
  intros L Hr Hx. set (tot := qsum (map qsum rows)). set (g := fun t row => rhog * (1 - por) * t * (nth x row 0 / tot)).
  assert (F : forall t, fill_layer_rows rhog por t nf nx x rows = Ok (map (g t) rows)).
  { intros t. unfold fill_layer_rows. fold tot. rewrite L, Nat.ltb_irrefl, firstn_all2 by lia.
    assert (G : forall m, (forall r, In r m -> In r rows) -> mapres (fun row => if Nat.eqb (length row) 1 then Ok (rhog * (1 - por) * t * (nth 0 row 0 / tot)) else if Nat.eqb (length row) (nx + 1) then Ok (rhog * (1 - por) * t * (nth x row 0 / tot)) else Raise ValueError) m = Ok (map (g t) m)).
    { induction m as [|r m IH]; intros Hm; [reflexivity|]. cbn [mapres map]. rewrite (IH (fun r' H => Hm r' (or_intror H))). pose proof (Hr r (Hm r (or_introl eq_refl))) as Lr. rewrite Lr. destruct (Nat.eqb_spec (S nx) 1) as [E|E].
      - assert (x = 0%nat) by lia. subst x. reflexivity.
      - destruct (Nat.eqb_spec (S nx) (nx + 1)); [reflexivity | lia]. }
    apply G. intros r H. exact H. }
  assert (E : initialize rhog por nf nx x th (Dist2 true rows) bedcomp = Ok (map (fun t => map (g t) rows) th)).
  { unfold initialize. induction th as [|t th IH]; [reflexivity|]. cbn [mapres map]. rewrite F, IH. reflexivity. }
  exists (map (fun t => map (g t) rows) th). split. exact E. split. apply map_length. intros i t Hi. exists (map (g t) rows). rewrite nth_error_map, Hi. split. reflexivity. split. rewrite map_length. exact L.
  intros k r Hk. rewrite (nth_error_nth (map (g t) rows) k 0 (x := g t r)) by (rewrite nth_error_map, Hk; reflexivity). reflexivity.
Qed.
Lemma init_matrix_raises rhog por nf nx x t th rows bedcomp : length rows = nf -> (exists r, In r rows /\ length r <> 1%nat /\ length r <> S nx) -> initialize rhog por nf nx x (t :: th) (Dist2 true rows) bedcomp = Raise ValueError.
Proof.
  intros L (r & Hr & N1 & N2). unfold initialize. cbn [mapres]. unfold fill_layer_rows at 1. rewrite L, Nat.ltb_irrefl, firstn_all2 by lia.
  assert (G : forall m, In r m -> mapres (fun row => if Nat.eqb (length row) 1 then Ok (rhog * (1 - por) * t * (nth 0 row 0 / qsum (map qsum rows))) else if Nat.eqb (length row) (nx + 1) then Ok (rhog * (1 - por) * t * (nth x row 0 / qsum (map qsum rows))) else Raise ValueError) m = Raise ValueError).
  { induction m as [|r' m IH]; intros Hm; [destruct Hm|]. cbn [mapres]. destruct Hm as [-> | Hm].
    - apply Nat.eqb_neq in N1. rewrite N1. destruct (Nat.eqb_spec (length r) (nx + 1)); [lia | reflexivity].
    - rewrite (IH Hm). destruct (Nat.eqb (length r') 1); [reflexivity|]. destruct (Nat.eqb (length r') (nx + 1)); reflexivity. }
  rewrite (G rows Hr). reflexivity.
Qed.
Lemma c24_matrix_case : length [[1; 2; 3]; [4; 5; 6]] = 2%nat /\ (forall r, In r [[1; 2; 3]; [4; 5; 6]] -> length r = 3%nat) /\
  (exists b, initialize 2650 (2 # 5) 2 2 1 [1 # 100] (Dist2 true [[1; 2; 3]; [4; 5; 6]]) None = Ok b /\ map (map Qred) b = [[53 # 35; 53 # 14]]).
Proof. split. reflexivity. split. intros r [<- | [<- | []]]; reflexivity. eexists. split. reflexivity. vm_compute. reflexivity. Qed.
Lemma c24_raises_case : length [[1; 3]; [2; 2]] = 2%nat /\ exists r, In r [[1; 3]; [2; 2]] /\ length r <> 1%nat /\ length r <> S 9.
Proof. split. reflexivity. exists [1; 3]. split. left. reflexivity. split; discriminate. Qed.
(** The same distribution of two layers, written with integers and with a decimal point. *)
Lemma c24_integers : exists rhog por nf nx x th rows b b' l, length rows = length th /\ (forall r, In r rows -> length r = nf /\ qsum r == 4) /\ initialize rhog por nf nx x th (Dist2 false rows) None = Ok b /\
  initialize rhog por nf nx x th (Dist2 true rows) None = Ok b' /\ nth_error b' 0 = Some l /\ ~ qsum l == rhog * (1 - por) * nth 0 th 0.
Proof.
  exists 2650, (2 # 5), 2%nat, 1%nat, 0%nat, [1 # 100; 1 # 50], [[1; 3]; [2; 2]]. do 3 eexists. split. reflexivity. split. intros r [<- | [<- | []]]; split; reflexivity. split. reflexivity. split. reflexivity. split. reflexivity. vm_compute. discriminate.
Qed.
