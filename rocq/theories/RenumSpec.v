(** Permutations, tuples of an array. *)
From Verif Require Import Base DataArray.

(** [p] is a permutation of 0..n-1. *)
Definition is_perm (n : Z) (p : list Z) : Prop := p ≡ₚ seqZ 0 n.

(** The i-th tuple of an array, and the list of all tuples. *)
Definition tuple {A} (d : da A) (i : Z) : list A := take (Z.to_nat (da_nc d)) (drop (Z.to_nat (i * da_nc d)) (da_vals d)).
Definition tuples {A} (d : da A) : list (list A) := tuple d <$> seqZ 0 (da_nt d).

(** [i] is the last position of [x] in [l]. *)
Definition last_pos {A} (l : list A) (x : A) (i : Z) : Prop :=
  l @ i = Some x /\ forall k, i < k -> l @ k <> Some x.
Definition first_pos {A} (l : list A) (x : A) (i : Z) : Prop :=
  l @ i = Some x /\ forall k, k < i -> l @ k <> Some x.

(** The ids described by a list of half open ranges, in order. *)
Definition ranges_ids (ranges : list (Z * Z)) : list Z := concat ((fun r => seqZ r.1 (r.2 - r.1)) <$> ranges).
(** A range is acceptable for an array of [n] tuples. *)
Definition range_within (n : Z) (r : Z * Z) : Prop := 0 <= r.1 /\ r.1 <= r.2 /\ r.2 <= n.
(** Some id is not in [0,n). *)
Definition out_of_range (n : Z) (p : list Z) : Prop := exists v, v ∈ p /\ ~ 0 <= v < n.
(** An entry of an old-to-new map for [m] new elements: -1 (deleted) or a valid target. *)
Definition o2n_ok (m v : Z) : Prop := v = -1 \/ 0 <= v < m.
