(** Vocabulary of the zones and of the neighbours of nodes. *)
From stdpp Require Import relations.
From Verif Require Import Base DataArray IndexSpec PartSpec UmModel UmSpec UcSpec.
Local Open Scope Z_scope.

(** [j] is in the pack [i] of the indexed array. *)
Definition link (arr arrI : list Z) (i j : Z) : Prop := exists p, pack arr arrI i p /\ j ∈ p.
(** The indexed array gives to each of [n] cells some of these cells. *)
Definition graph (n : Z) (arr arrI : list Z) : Prop :=
  zlen arrI = n + 1 /\ forall i, 0 <= i < n -> exists p, pack arr arrI i p /\ forall j, j ∈ p -> 0 <= j < n.
(** [k] links lead from one of the seeds to [j]. *)
Definition leads (R : Z -> Z -> Prop) (seeds : list Z) (k : nat) (j : Z) : Prop := exists s, s ∈ seeds /\ nsteps R k s j.
(** The distance from the seeds to [j]: the least number of links. *)
Definition distance (R : Z -> Z -> Prop) (seeds : list Z) (k : nat) (j : Z) : Prop := leads R seeds k j /\ forall k', leads R seeds k' j -> (k <= k')%nat.
(** A number of links allowed by the limit; -1 is no limit. *)
Definition in_limit (depth : Z) (k : nat) : Prop := depth = -1 \/ Z.of_nat k <= Z.max 0 depth.
(** The zones one after another: each one is what is reached from the first cell that is in no zone before it, without the cells of these zones. *)
Definition zones (R : Z -> Z -> Prop) (n : Z) (zs : list (list Z)) : Prop :=
  (forall i, 0 <= i < n -> i ∈ concat zs) /\
  forall t z, zs @ t = Some z -> exists s, 0 <= s < n /\ s ∉ concat (take (Z.to_nat t) zs) /\ (forall i, 0 <= i < s -> i ∈ concat (take (Z.to_nat t) zs)) /\
    ascending z /\ forall j, j ∈ z <-> rtc R s j /\ j ∉ concat (take (Z.to_nat t) zs).
(** Two different cells have a common son. *)
Definition adjacent (fss : list (list cell)) (i j : Z) : Prop :=
  i <> j /\ exists fs fs' f f', fss @ i = Some fs /\ fss @ j = Some fs' /\ f ∈ fs /\ f' ∈ fs' /\ same_nodes f.2 f'.2.
(** [a] and [b] are the ends of the edge. *)
Definition ends (f : cell) (a b : Z) : Prop := f.2 = [a; b] \/ f.2 = [b; a].
(** A cell has both nodes; the separators of the polyhedra, -1, are no nodes. *)
Definition shared (cells : list cell) (i j : Z) : Prop := j <> -1 /\ exists c, c ∈ cells /\ i ∈ c.2 /\ j ∈ c.2.
