(** Vocabulary of the types met along a mesh. *)
From Verif Require Import Base.
Local Open Scope Z_scope.

(** [r] gives the values of [l] in order, one for each run of equal values: [l] is made of the values of [r], each one repeated, and no value of [r] is followed by itself. *)
Definition runs (l r : list Z) : Prop :=
  (exists counts, length counts = length r /\ Forall (fun n => (1 <= n)%nat) counts /\ l = concat (zip_with replicate counts r)) /\
  forall i a b, r @ i = Some a -> r @ (i + 1) = Some b -> a <> b.
