(** Vocabulary of searches, sets of ids and ranks. *)
From Verif Require Import Base DataArray.

Definition increasing (r : list Z) : Prop := forall i j x y, i < j -> r @ i = Some x -> r @ j = Some y -> x < y.
Definition nondecreasing (r : list Z) : Prop := forall i j x y, i < j -> r @ i = Some x -> r @ j = Some y -> x <= y.
Definition decreasing (r : list Z) : Prop := forall i j x y, i < j -> r @ i = Some x -> r @ j = Some y -> y < x.
Definition nonincreasing (r : list Z) : Prop := forall i j x y, i < j -> r @ i = Some x -> r @ j = Some y -> y <= x.

(** [r] is the increasing list of the ids of the elements of [l] that satisfy [P]. *)
Definition ids_where {A} (P : A -> Prop) (l : list A) (r : list Z) : Prop :=
  increasing r /\ forall i, i ∈ r <-> exists v, l @ i = Some v /\ P v.

(** [r] is the increasing enumeration of the integers that satisfy [P]. *)
Definition enumerates (P : Z -> Prop) (r : list Z) : Prop := increasing r /\ forall x, x ∈ r <-> P x.

(** [i] is the first id whose element satisfies [P], or -1 if there is none. *)
Definition first_where {A} (P : A -> Prop) (l : list A) (i : Z) : Prop :=
  (i = -1 /\ forall k v, l @ k = Some v -> ~ P v) \/
  (exists v, l @ i = Some v /\ P v /\ forall k v, k < i -> l @ k = Some v -> ~ P v).

(** [pat] is found in [l] at position [i]. *)
Definition occurs_at {A} (pat l : list A) (i : Z) : Prop :=
  0 <= i /\ i + zlen pat <= zlen l /\ forall k, 0 <= k < zlen pat -> l @ (i + k) = pat @ k.

(** Number of occurrences. *)
Definition occ (x : Z) (l : list Z) : Z := zlen (filter (fun y => y = x) l).
(** Number of elements lower than [x]. *)
Definition nlower (x : Z) (l : list Z) : Z := zlen (filter (fun y => y < x) l).

(** The shapes refused by the functions that ask for an allocated array with one component. *)
Definition bad_shape {A} (d : da A) : Prop := da_alloc d = false \/ da_nc d <> 1.
