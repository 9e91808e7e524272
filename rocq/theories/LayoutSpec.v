(** What the rearrangements of an array mean, tuple by tuple. *)
From Verif Require Import Base DataArray.

(** [l] holds [n] tuples of [c] values, and component [j] of tuple [i] is [f i j]. *)
Definition holds {A} (l : list A) (n c : Z) (f : Z -> Z -> option A) : Prop :=
  zlen l = n * c /\ forall i j, 0 <= i < n -> 0 <= j < c -> l @ (i * c + j) = f i j.

(** A buffer every cell of which has been written. *)
Definition cells {A} (l : list A) : list (option A) := Some <$> l.

Notation unallocated d := (da_alloc d = false).
