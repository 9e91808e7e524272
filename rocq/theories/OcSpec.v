(** Lines made of segments. *)
From stdpp Require Import relations.
From Verif Require Import Base CellModel UmModel UmSpec.

(** Node [n] is an end of cell [i]: one of its first two nodes; the others are in the middle. *)
Definition has_end (cells : list cell) (i n : Z) : Prop := exists c : cell, cells @ i = Some c /\ n ∈ take 2 c.2.
(** Two cells have an end in common. *)
Definition touch (cells : list cell) (i j : Z) : Prop := exists n, has_end cells i n /\ has_end cells j n.
(** Each cell of the list has an end in common with the next one. *)
Definition consecutive (cells : list cell) (l : list Z) : Prop := forall k i j, l @ k = Some i -> l @ (k + 1) = Some j -> touch cells i j.
(** A node is never in three cells, and the end of a cell is in the middle of none. *)
Definition is_line (cells : list cell) : Prop :=
  (forall n i j k (ci cj ck : cell), cells @ i = Some ci -> cells @ j = Some cj -> cells @ k = Some ck -> n ∈ ci.2 -> n ∈ cj.2 -> n ∈ ck.2 -> i = j \/ j = k \/ i = k) /\
  (forall n i j (c : cell), has_end cells i n -> cells @ j = Some c -> n ∈ c.2 -> n ∈ take 2 c.2).
(** One goes from any cell to any other one by cells that touch. *)
Definition connected (cells : list cell) : Prop := forall i j, 0 <= i < zlen cells -> 0 <= j < zlen cells -> rtc (touch cells) i j.
