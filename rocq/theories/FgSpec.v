(** What families and groups mean: independent of how the maps are searched or updated. *)
From stdpp Require Import strings.
From Verif Require Import Base DataArray SearchSpec FgModel.

(** Entity [e] of level [l] is in group [g]: its family id, read in the family field of the level, is the id of a family of [g]. *)
Definition member (m : fmesh) (l : Z) (g : string) (e : Z) : Prop :=
  exists fams n id v a, (g, fams) ∈ fm_grps m /\ n ∈ fams /\ (n, id) ∈ fm_fams m /\
    v ∈ fm_levs m /\ lv_id v = l /\ lv_fam v = Some a /\ a @ e = Some id.
(** [x] is written in the family field of level [l]. *)
Definition in_field (m : fmesh) (l x : Z) : Prop := exists v a, v ∈ fm_levs m /\ lv_id v = l /\ lv_fam v = Some a /\ x ∈ a.
(** Level [l] exists and has [nb] entities. *)
Definition has_level (m : fmesh) (l nb : Z) : Prop := exists v, v ∈ fm_levs m /\ lv_id v = l /\ lv_nb v = nb.
Definition has_group (m : fmesh) (g : string) : Prop := exists fams, (g, fams) ∈ fm_grps m.
(** Family [n], of id [id], belongs to some group. *)
Definition grouped (m : fmesh) (n : string) (id : Z) : Prop := exists g fams, (g, fams) ∈ fm_grps m /\ n ∈ fams /\ (n, id) ∈ fm_fams m.

(** A std::map: keys strictly increasing. *)
Definition ordered {V} (m : list (string * V)) : Prop := StronglySorted (fun p q => String.ltb p.1 q.1 = true) m.
(** What C++ guarantees of any such object: two ordered maps, one family field per level, with one id per entity. *)
Definition valid (m : fmesh) : Prop :=
  ordered (fm_fams m) /\ ordered (fm_grps m) /\ NoDup (lv_id <$> fm_levs m) /\
  (forall v, v ∈ fm_levs m -> 0 <= lv_nb v) /\
  forall v a, v ∈ fm_levs m -> lv_fam v = Some a -> zlen a = lv_nb v.
(** The families of a group exist. *)
Definition closed (m : fmesh) : Prop := forall g fams n, (g, fams) ∈ fm_grps m -> n ∈ fams -> exists id, (n, id) ∈ fm_fams m.
(** Two families never share an id. *)
Definition distinct (m : fmesh) : Prop := forall n n' id, (n, id) ∈ fm_fams m -> (n', id) ∈ fm_fams m -> n = n'.
(** A family of a group has an id different from 0 and lives on one level. *)
Definition apart (m : fmesh) : Prop := forall n id, grouped m n id -> id <> 0 /\ forall l l', in_field m l id -> in_field m l' id -> l = l'.
(** The ids of the family fields do not exceed, in absolute value, those of the families. *)
Definition bounded (m : fmesh) : Prop := forall l x, in_field m l x -> x = 0 \/ exists n id, (n, id) ∈ fm_fams m /\ Z.abs x <= Z.abs id.
Definition coherent (m : fmesh) : Prop :=
  valid m /\ closed m /\ distinct m /\ apart m /\ bounded m /\ forall l nb, has_level m l nb -> 0 < nb.
(** Same levels, with the same numbers of entities. *)
Definition same_levels (m m' : fmesh) : Prop := forall l nb, has_level m l nb <-> has_level m' l nb.
(** No list of families names one of them twice. *)
Definition no_repeat (m : fmesh) : Prop := forall g fams, (g, fams) ∈ fm_grps m -> NoDup fams.
(** Every group keeps its entities on every level. *)
Definition same_content (m m' : fmesh) : Prop := forall l g e, member m' l g e <-> member m l g e.
(** What addGroup asks of its arguments, and what it does. *)
Definition acceptable (m : fmesh) (l : Z) (g : string) (ids : list Z) : Prop :=
  (exists nb, has_level m l nb /\ forall e, e ∈ ids -> 0 <= e < nb) /\ g <> "" /\ increasing ids /\ forall e, ~ member m l g e.
Definition group_added (m : fmesh) (l : Z) (g : string) (ids : list Z) (m' : fmesh) : Prop :=
  (forall e, member m' l g e <-> e ∈ ids) /\
  (forall l' g' e, l' <> l \/ g' <> g -> member m' l' g' e <-> member m l' g' e) /\
  (forall g', has_group m' g' <-> has_group m g' \/ g' = g) /\ same_levels m m'.
(** The family id of entity [e] of level [l]. *)
Definition id_at (m : fmesh) (l e x : Z) : Prop := exists v a, v ∈ fm_levs m /\ lv_id v = l /\ lv_fam v = Some a /\ a @ e = Some x.
(** A new mesh: no family, no group, family fields absent or full of 0. *)
Definition blank (m : fmesh) : Prop :=
  valid m /\ fm_fams m = [] /\ fm_grps m = [] /\ (forall l x, in_field m l x -> x = 0) /\ forall l nb, has_level m l nb -> 0 < nb.
(** What an edit is meant to do to the contents of the groups: level, group, entity. *)
Definition content := Z -> string -> Z -> Prop.
Definition after (c : content) (ed : edit) : content :=
  match ed with
  | AddGroup l g ids => fun l' g' e => (l' = l /\ g' = g /\ e ∈ ids) \/ (~ (l' = l /\ g' = g) /\ c l' g' e)
  | RemoveGroup g => fun l' g' e => g' <> g /\ c l' g' e
  | RenameGroup o n => fun l' g' e => (g' = n /\ c l' o e) \/ (g' <> n /\ g' <> o /\ c l' g' e)
  | RemoveGroupAt l g => fun l' g' e => ~ (l' = l /\ g' = g) /\ c l' g' e
  | RenameFamily _ _ | Rearrange => c
  end.
Definition no_content : content := fun _ _ _ => False.
