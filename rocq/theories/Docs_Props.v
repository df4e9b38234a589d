(** Threshold and transport rate against their documentation: properties C186, C188 and C197. *)
From Verif Require Import Base Ext Threshold_Model Threshold_Spec Threshold_Cases Docs_Spec Docs_Proofs Docs_Cases Docs_Salt.
From Coq Require Import Reals String List.
Import ListNotations.
Open Scope R_scope.

(** C186 outside the contents between 0.005 and the boundary of the code: the threshold of every fraction is the documented product of factors.  Full statement: at any content; false, see C186_moist_refuted. *)
Theorem C186_factors_partial : forall p c t mm, physical p -> all_factors p -> m p = Some mm -> sheltered p mm c -> mask c = (1, 0) ->
  doc_content p (moist c) < 5 / 1000 \/ doc_content p (resw_moist p) + 5 / 1000 < doc_content p (moist c) ->
  exists t', compute p c t = Ok t' /\ uth t' = map (doc_threshold p mm c) (grain_size p).
Proof. exact threshold_documented. Qed.
Print Assumptions C186_factors_partial.
Example C186_factors_partial_case : physical (beach (1 / 2)) /\ all_factors (beach (1 / 2)) /\ m (beach (1 / 2)) = Some (1 / 2) /\ sheltered (beach (1 / 2)) (1 / 2) (patch (2 / 100)) /\ mask (patch (2 / 100)) = (1, 0) /\
  doc_content (beach (1 / 2)) (resw_moist (beach (1 / 2))) + 5 / 1000 < doc_content (beach (1 / 2)) (moist (patch (2 / 100))) /\
  doc_threshold (beach (1 / 2)) (1 / 2) (patch (2 / 100)) (225 / 1000000) <> PInf.
Proof. exact c186_case. Qed.

(** C186 up to the boundary of the code: the documented threshold of the same bed without water. *)
Theorem C186_ignored : forall p c t mm, physical p -> all_factors p -> m p = Some mm -> sheltered p mm c -> mask c = (1, 0) ->
  doc_content p (moist c) <= doc_content p (resw_moist p) + 5 / 1000 -> doc_content p (moist c) <= 64 / 1000 ->
  exists t', compute p c t = Ok t' /\ uth t' = map (doc_threshold p mm (dried c)) (grain_size p).
Proof. exact threshold_ignored. Qed.
Print Assumptions C186_ignored.
Example C186_ignored_case : physical (beach (1 / 2)) /\ all_factors (beach (1 / 2)) /\ sheltered (beach (1 / 2)) (1 / 2) (patch (1 / 100)) /\
  5 / 1000 < doc_content (beach (1 / 2)) (moist (patch (1 / 100))) <= doc_content (beach (1 / 2)) (resw_moist (beach (1 / 2))) + 5 / 1000.
Proof. exact c186_ignored_case. Qed.

(** C186 is false: with the default residual moisture, a mass content of 1 % should raise the threshold by a factor 1.8, and has no effect. *)
Theorem C186_moist_refuted : exists p mm c t t' x y, p = beach mm /\ physical p /\ all_factors p /\ m p = Some mm /\ sheltered p mm c /\ mask c = (1, 0) /\ doc_content p (moist c) = 1 / 100 /\
  compute p c t = Ok t' /\ nth 0 (uth t') NaN = Fin x /\ doc_threshold p mm c (225 / 1000000) = Fin y /\ 0 < x /\ y = 9 / 5 * x.
Proof. exact c186_refuted. Qed.
Print Assumptions C186_moist_refuted.

(** C188: the saturated transport rate is the documented one in terms of the wind speed at height z, whatever the speed of the grains. *)
Theorem C188_rate : forall q tr D g c c' k z z0 uz ut, good_t q -> process_transport q = true -> accfac q = 1 -> 0 < gu g -> 0 < k -> 1 < z / z0 -> 0 < uz -> 0 < gd g ->
  gustar g = law_of_the_wall k z z0 uz -> guth g = Fin (law_of_the_wall k z z0 ut) -> (tr = Bagnold /\ D = gd g) \/ (tr = BagnoldGs /\ D = 25 / 100000) ->
  equilibrium q tr 1 g c = Ok c' -> emul (Cu c') (Fin (gu g)) = Fin (doc_rate k z z0 (Cb q) (trhoa q) (tg q) (gd g) D uz ut).
Proof. exact rate_documented. Qed.
Print Assumptions C188_rate.
Example C188_rate_case : good_t qdef /\ process_transport qdef = true /\ accfac qdef = 1 /\ 0 < gu windy /\ 1 < 10 / (1 / 1000) /\ (exists c', equilibrium qdef BagnoldGs 1 windy calm = Ok c') /\
  0 < doc_rate (41 / 100) 10 (1 / 1000) (15 / 10) (1225 / 1000) (981 / 100) (300 / 1000000) (25 / 100000) 10 6.
Proof. exact c188_case. Qed.

(** What holds instead of C197 (see C197_fresh_refuted): on a dry bed any increase of the state variable salt lowers the threshold. *)
Theorem C197_lowers : forall s s', s < s' -> exists t t' x y, compute (beach 0) (with_salt (patch 0) s) none_yet = Ok t /\ compute (beach 0) (with_salt (patch 0) s') none_yet = Ok t' /\
  nth 0 (uth t) NaN = Fin x /\ nth 0 (uth t') NaN = Fin y /\ 0 < y < x.
Proof. exact salt_lowers. Qed.
Print Assumptions C197_lowers.
Example C197_lowers_case : 0 < 1 / 2 /\ salt (with_salt (patch 0) (1 / 2)) = 1 / 2 /\ physical (beach 0) /\ th_salt (beach 0) = true.
Proof. exact salt_lowers_case. Qed.

(** C197 is false: a bed without salt has more than twenty times the documented threshold, which is that of a bed with the maximum of salt. *)
Theorem C197_fresh_refuted : exists p c t t' t'' x y, p = beach 0 /\ physical p /\ all_factors p /\
  compute p (with_salt c 0) t = Ok t' /\ compute p (with_salt c 1) t = Ok t'' /\ nth 0 (uth t') NaN = Fin x /\ nth 0 (uth t'') NaN = Fin y /\
  y = doc_salt 0 * doc_grain p (225 / 1000000) /\ 0 < y /\ 20 * y < x.
Proof. exact c197_refuted. Qed.
Print Assumptions C197_fresh_refuted.
