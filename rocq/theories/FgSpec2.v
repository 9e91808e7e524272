(** Families of the same groups, families of one level. *)
From stdpp Require Import strings.
From Verif Require Import Base DataArray SearchSpec FgModel FgSpec.

(** Families [n] and [n'] are in the same groups. *)
Definition alike (m : fmesh) (n n' : string) : Prop := forall g fams, (g, fams) ∈ fm_grps m -> n ∈ fams <-> n' ∈ fams.
(** Every family of a group is used by an entity, on one level only. *)
Definition one_level (m : fmesh) : Prop := forall n id, grouped m n id ->
  (exists l, in_field m l id) /\ forall l l', in_field m l id -> in_field m l' id -> l = l'.
(** A family called Family_<y> has an id not smaller than |y| in absolute value, or another family has. *)
Definition unclaimed (m : fmesh) : Prop := forall y id, (familyName y, id) ∈ fm_fams m -> exists n x, (n, x) ∈ fm_fams m /\ Z.abs y <= Z.abs x.
(** What setGroupsAtLevel asks: different names, none empty, an existing level, ids of its entities. *)
Definition groups_fit (m : fmesh) (l : Z) (named : list (string * list Z)) : Prop :=
  NoDup named.*1 /\ "" ∉ named.*1 /\ exists nb, has_level m l nb /\ forall g ids e, (g, ids) ∈ named -> e ∈ ids -> 0 <= e < nb.
(** What it does: on level [l] the groups are the given ones, on the other levels nothing changes; a group given without entity is not created. *)
Definition groups_set (m : fmesh) (l : Z) (named : list (string * list Z)) (m' : fmesh) : Prop :=
  (forall g e, member m' l g e <-> exists ids, (g, ids) ∈ named /\ e ∈ ids) /\
  (forall l' g e, l' <> l -> member m' l' g e <-> member m l' g e) /\
  (forall g, has_group m' g <-> has_group m g \/ exists ids, (g, ids) ∈ named /\ ids <> []) /\ same_levels m m'.
(** The new name of a family that is alone in a group and belongs to no other group is the name of this group. *)
Definition alone (m : fmesh) (n g : string) : Prop := (g, [n]) ∈ fm_grps m /\ forall g' f, (g', f) ∈ fm_grps m -> n ∈ f -> g' = g.
Definition new_name (m : fmesh) (n k : string) : Prop := alone m n k \/ (~ (exists g, alone m n g) /\ k = n).
