(** Model of fence heights, /repo/aeolis/fences.py:49-56 [initialize] and 68-82 [update_fence_height], for one cell: every statement there
    is pointwise. [zf] is the same array as [fence_height_init] (fences.py:54-55). Rational arithmetic. *)
From Verif Require Import Base Num.
Open Scope Q_scope.

(** The fence arrays in one cell. *)
Record fence := { top : Q; init : Q; height : Q }.
(** fences.py:49-56: [h] is the value of fence_file, [zb] the initial bed level. *)
Definition initialize (h zb : Q) : fence := {| top := zb + h; init := h; height := h |}.
(** fences.py:68-82 *)
Definition update_fence_height (f : fence) (zb : Q) : fence :=
  let h := top f - zb in
  let h := if Qltb (init f) (1 # 10) then 0 else h in
  let h := if Qltb (top f) (1 # 10) then 0 else h in
  let h := if Qltb h (1 # 10) then 0 else h in
  let gone := Qltb (3 # 2) h in
  {| top := top f; init := if gone then 0 else init f; height := if gone then 0 else h |}.
(** The fence after the bed took the levels [zbs], one per call (model.py:284-285). *)
Definition history (h zb : Q) (zbs : list Q) : fence := fold_left update_fence_height zbs (initialize h zb).
