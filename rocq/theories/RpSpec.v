(** Vocabulary of cells replaced. *)
From Verif Require Import Base UmSpec.
Local Open Scope Z_scope.

(** The cell number ids[k] is news[k], the cells not in [ids] are kept. *)
Definition cells_replaced (old : list cell) (ids : list Z) (news res : list cell) : Prop :=
  zlen res = zlen old /\ (forall k i, ids @ k = Some i -> res @ i = news @ k) /\ (forall i, i ∉ ids -> res @ i = old @ i).
