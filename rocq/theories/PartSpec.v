(** Partitions, groups, chains of pairs. *)
From stdpp Require Import relations.
From Verif Require Import Base DataArray RenumSpec.

(** The values of [l] are numbered in the order of their first occurrence. *)
Definition ordered_by_first (l : list Z) : Prop :=
  forall i j v w, first_pos l v i -> first_pos l w j -> i < j -> v < w.

(** [p] is the pair number [i] of the flat list of pairs [l]. *)
Definition pair_at (l : list Z) (i : Z) (p : Z * Z) : Prop := l @ (2 * i) = Some p.1 /\ l @ (2 * i + 1) = Some p.2.
(** The flat list of pairs. *)
Definition flat (ps : list (Z * Z)) : list Z := ps ≫= (fun p => [p.1; p.2]).

(** The same pair, possibly flipped. *)
Definition same_pair (p q : Z * Z) : Prop := p = q \/ p = (q.2, q.1).

(** Every pair begins where the previous one ends. *)
Definition consecutive (c : list (Z * Z)) : Prop :=
  forall i p q, c @ i = Some p -> c @ (i + 1) = Some q -> p.2 = q.1.

(** [a] and [b] are related by a chain of pairs of the flat list [l]. *)
Definition paired (l : list Z) (a b : Z) : Prop := exists i, pair_at l i (a, b) \/ pair_at l i (b, a).
Definition linked (l : list Z) (a b : Z) : Prop := rtc (paired l) a b.

(** [e] is one of the two ends of the chain [c]. *)
Definition chain_end (c : list (Z * Z)) (e : Z) : Prop :=
  (exists p, c @ 0 = Some p /\ e = p.1) \/ (exists p, c @ (zlen c - 1) = Some p /\ e = p.2).

(** The first [n] pairs of the flat list [l] are, up to a flip, the consecutive pairs of the list of nodes [xs], which never
    stays on a node nor goes back to the previous one. *)
Definition node_path (l : list Z) (n : Z) (xs : list Z) : Prop :=
  zlen xs = n + 1 /\
  (forall i, 0 <= i < n -> exists p x y, pair_at l i p /\ xs @ i = Some x /\ xs @ (i + 1) = Some y /\ same_pair p (x, y) /\ x <> y) /\
  (forall i x y, xs @ i = Some x -> xs @ (i + 2) = Some y -> x <> y).
