(** Families and groups of a MED file mesh: reading, addGroup, histories of edits, cleaning. *)
From stdpp Require Import strings.
From Verif Require Import Base DataArray SearchSpec FgModel FgSpec FgProofs2 FgProofs4 FgProofs5 FgProofs6 FgProofs7 FgProofs8 FgExamples.

(** ** C81: reading a group. *)
Theorem C81_getGroupsArr m l grps : valid m -> closed m -> (forall g, g ∈ grps -> has_group m g) -> (exists v a, v ∈ fm_levs m /\ lv_id v = l /\ lv_fam v = Some a) ->
  exists r, getGroupsArr l grps m = Ok r /\ enumerates (fun e => exists g, g ∈ grps /\ member m l g e) r.
Proof. exact (groupsArr_all m l grps). Qed.
Print Assumptions C81_getGroupsArr.
Example C81_getGroupsArr_some : valid mesh1 /\ closed mesh1 /\ has_group mesh1 "A" /\ has_group mesh1 "Z" /\ getGroupsArr 0 ["Z"; "A"] mesh1 = Ok [0; 1; 3] /\ getGroupArr 1 "N" mesh1 = Ok [0; 4].
Proof. split; [exact mesh1_valid|]. split; [exact mesh1_closed|]. split; [by eapply mesh1_group|]. split; [by eapply mesh1_group|]. by vm_compute. Qed.
(** What is refused: an unknown group, a group naming a family that does not exist, a level that does not exist (nodes excepted). *)
Theorem C81_refused m l g : valid m ->
  (~ has_group m g -> getGroupArr l g m = Throw) /\
  (forall fams n, (g, fams) ∈ fm_grps m -> n ∈ fams -> (forall id, (n, id) ∉ fm_fams m) -> getGroupArr l g m = Throw) /\
  (closed m -> has_group m g -> (forall nb, ~ has_level m l nb) -> getGroupArr l g m = if l =? 1 then Ok [] else Throw).
Proof. exact (groupArr_refused m l g). Qed.
Print Assumptions C81_refused.
Example C81_refused_some : valid mesh1 /\ ~ has_group mesh1 "B" /\ getGroupArr 0 "B" mesh1 = Throw /\ getGroupArr (-2) "A" mesh1 = Throw.
Proof. split; [exact mesh1_valid|]. split; [by apply mesh1_no_group|]. by vm_compute. Qed.
(** A level of cells whose family field was never set: a null pointer is used (the documentation announces an exception). *)
Theorem C81_no_field_refuted m l g v : valid m -> closed m -> has_group m g -> v ∈ fm_levs m -> lv_id v = l -> lv_fam v = None ->
  getGroupArr l g m = if l =? 1 then Ok [] else UB.
Proof. exact (groupArr_nofield m l g v). Qed.
Print Assumptions C81_no_field_refuted.
Example C81_no_field_some : (let* m := addGroup 0 (Some ("A", vec [1])) new_mesh in getGroupArr (-1) "A" m) = UB.
Proof. by vm_compute. Qed.
(** The groups having an entity on a level. *)
Theorem C81_groupsOnLevel m l : valid m -> closed m -> (exists nb, has_level m l nb) \/ l = 1 ->
  exists r, getGroupsOnSpecifiedLev l m = Ok r /\ (forall g, g ∈ r <-> exists e, member m l g e) /\ NoDup r.
Proof. exact (groupsOnLev_ok m l). Qed.
Print Assumptions C81_groupsOnLevel.
Example C81_groupsOnLevel_some : valid mesh1 /\ closed mesh1 /\ has_level mesh1 0 4 /\ getGroupsOnSpecifiedLev 0 mesh1 = Ok ["A"; "Z"] /\ getGroupsOnSpecifiedLev (-1) mesh1 = Ok [].
Proof. split; [exact mesh1_valid|]. split; [exact mesh1_closed|]. split; [apply mesh1_level|]. by vm_compute. Qed.

(** ** C82: adding groups, and histories of edits. *)
Theorem C82_addGroup m l g ids : coherent m ->
  (acceptable m l g ids /\ exists m', addGroup l (Some (g, vec ids)) m = Ok m' /\ group_added m l g ids m' /\ coherent m') \/
  (~ acceptable m l g ids /\ addGroup l (Some (g, vec ids)) m = Throw).
Proof. exact (addGroup_both m l g ids). Qed.
Print Assumptions C82_addGroup.
Example C82_addGroup_some : coherent mesh1 /\ acceptable mesh1 0 "New" [1; 2] /\
  (let* m := addGroup 0 (Some ("New", vec [1; 2])) mesh1 in let* a := getGroupArr 0 "A" m in let* z := getGroupArr 0 "Z" m in let* n := getGroupArr 0 "New" m in Ok (a, z, n)) = Ok ([0; 1], [0; 3], [1; 2]).
Proof. split; [exact mesh1_coherent|]. split; [exact mesh1_accepts|]. by vm_compute. Qed.
(** Null pointers, arrays not allocated or with several components. *)
Theorem C82_bad_array m l o : match o with Some (_, d) => da_alloc d = false \/ da_nc d <> 1 | None => True end -> addGroup l o m = Throw.
Proof. exact (addGroup_bad m l o). Qed.
Print Assumptions C82_bad_array.
Example C82_bad_array_some : addGroup 0 (Some ("New", DA true 2 [1; 2])) mesh1 = Throw.
Proof. by vm_compute. Qed.
(** Any sequence of accepted edits, from a new mesh: the contents of the groups are the ones the edits describe. *)
Theorem C82_history m0 hist : blank m0 -> wp (foldM doEdit hist m0)
  (fun m => (forall l g e, member m l g e <-> foldl after no_content hist l g e) /\ coherent m /\ no_repeat m /\ same_levels m0 m) True.
Proof. exact (history_ok m0 hist). Qed.
Print Assumptions C82_history.
Example C82_history_some : blank new_mesh /\ foldM doEdit edits new_mesh = Ok mesh1 /\ getGroupArr 0 "Z" mesh1 = Ok [0; 3] /\ getGroupArr 1 "N" mesh1 = Ok [0; 4].
Proof. split; [exact new_blank|]. by vm_compute. Qed.

(** ** C83: addGroup outside these histories does not always leave the other groups alone. *)
(** The largest id in use is computed from the maximum of each field, not from the maximum of the absolute values: once a family of a
    removed group is dropped, its id is given again. *)
Theorem C83_max_id_refuted : exists m0 hist m m', blank m0 /\ foldM doEdit hist m0 = Ok m /\ let m1 := removeFamiliesReferedByNoGroups m in
  addGroup 0 (Some ("D", vec [0])) m1 = Ok m' /\ getGroupArr 0 "A" m1 = Ok [0; 1] /\ getGroupArr 0 "A" m' = Ok [0; 1; 2; 3] /\ getGroupArr 0 "D" m' = Ok [0; 2].
Proof. exact max_id_reused. Qed.
Print Assumptions C83_max_id_refuted.
(** A family used on two levels: split on one of them, its group loses the entities of the other one. *)
Theorem C83_two_levels_refuted : exists m0 m m', blank m0 /\ createGroupOnAll 0 "All" m0 = Ok m /\ addGroup 0 (Some ("H", vec [0])) m = Ok m' /\
  getGroupArr (-1) "All" m = Ok [0; 1; 2] /\ getGroupArr (-1) "All" m' = Ok [].
Proof. exact two_levels_lost. Qed.
Print Assumptions C83_two_levels_refuted.

(** ** C84: edits of the maps. *)
Theorem C84_removeGroup m g : valid m -> has_group m g -> exists m', removeGroup g m = Ok m' /\
  (forall l g' e, member m' l g' e <-> member m l g' e /\ g' <> g) /\ (forall g', has_group m' g' <-> has_group m g' /\ g' <> g) /\
  same_levels m m' /\ (coherent m -> coherent m') /\ (no_repeat m -> no_repeat m').
Proof. exact (removeGroup_ok m g). Qed.
Print Assumptions C84_removeGroup.
Example C84_removeGroup_some : valid mesh1 /\ has_group mesh1 "A".
Proof. split; [exact mesh1_valid|]. by eapply mesh1_group. Qed.
Theorem C84_removeGroupAtLevel m l g : valid m -> closed m -> has_group m g -> (exists nb, has_level m l nb) \/ l = 1 ->
  exists m', removeGroupAtLevel l g m = Ok m' /\
    (forall l' e, member m' l' g e <-> member m l' g e /\ ~ exists x, id_at m l' e x /\ in_field m l x) /\
    (forall l' g' e, g' <> g -> member m' l' g' e <-> member m l' g' e) /\ (forall g', has_group m' g' <-> has_group m g') /\ same_levels m m' /\
    (coherent m -> coherent m') /\ (no_repeat m -> no_repeat m').
Proof. exact (removeGroupAtLevel_ok m l g). Qed.
Print Assumptions C84_removeGroupAtLevel.
Example C84_removeGroupAtLevel_some : valid mesh1 /\ closed mesh1 /\ has_group mesh1 "A" /\ has_level mesh1 0 4 /\ (let* m := removeGroupAtLevel 0 "A" mesh1 in getGroupArr 0 "A" m) = Ok [].
Proof. split; [exact mesh1_valid|]. split; [exact mesh1_closed|]. split; [by eapply mesh1_group|]. split; [apply mesh1_level|]. by vm_compute. Qed.
Theorem C84_changeGroupName m o n : valid m -> has_group m o -> ~ has_group m n -> exists m', changeGroupName o n m = Ok m' /\
  (forall l g e, member m' l g e <-> (g = n /\ member m l o e) \/ (g <> n /\ g <> o /\ member m l g e)) /\
  (forall g, has_group m' g <-> g = n \/ (g <> o /\ has_group m g)) /\ same_levels m m' /\ (coherent m -> coherent m') /\ (no_repeat m -> no_repeat m').
Proof. exact (changeGroupName_ok m o n). Qed.
Print Assumptions C84_changeGroupName.
Example C84_changeGroupName_some : valid mesh1 /\ has_group mesh1 "A" /\ ~ has_group mesh1 "B".
Proof. split; [exact mesh1_valid|]. split; [by eapply mesh1_group|by apply mesh1_no_group]. Qed.
(** Families of the same group listed twice are excluded: see below. *)
Theorem C84_changeFamilyName_partial m o n : valid m -> closed m -> no_repeat m -> (exists id, (o, id) ∈ fm_fams m) -> (forall id, (n, id) ∉ fm_fams m) ->
  exists m', changeFamilyName o n m = Ok m' /\ same_content m m' /\ (forall g, has_group m' g <-> has_group m g) /\ same_levels m m' /\
    (forall id, (n, id) ∈ fm_fams m' <-> (o, id) ∈ fm_fams m) /\ (coherent m -> coherent m') /\ no_repeat m'.
Proof. exact (changeFamilyName_ok m o n). Qed.
Print Assumptions C84_changeFamilyName_partial.
Example C84_changeFamilyName_some : valid mesh1 /\ closed mesh1 /\ no_repeat mesh1 /\ ("mine", -3) ∈ fm_fams mesh1 /\ forall id, ("other", id) ∉ fm_fams mesh1.
Proof. split; [exact mesh1_valid|]. split; [exact mesh1_closed|]. split; [apply mesh1_sound|]. split; [apply (bool_decide_unpack _); by vm_compute|exact mesh1_no_other]. Qed.
Theorem C84_removeFamily_partial m n id : valid m -> distinct m -> no_repeat m -> (n, id) ∈ fm_fams m ->
  exists m', removeFamily n m = Ok m' /\ (forall l g e, member m' l g e <-> member m l g e /\ ~ id_at m l e id) /\
    (forall g, has_group m' g <-> has_group m g) /\ same_levels m m' /\ (forall k x, (k, x) ∈ fm_fams m' <-> (k, x) ∈ fm_fams m /\ k <> n) /\ (closed m -> closed m').
Proof. exact (removeFamily_ok m n id). Qed.
Print Assumptions C84_removeFamily_partial.
Example C84_removeFamily_some : valid mesh1 /\ distinct mesh1 /\ no_repeat mesh1 /\ ("mine", -3) ∈ fm_fams mesh1 /\ (let* m := removeFamily "mine" mesh1 in getGroupArr 0 "A" m) = Ok [1].
Proof. split; [exact mesh1_valid|]. split; [exact mesh1_distinct|]. split; [apply mesh1_sound|]. split; [apply (bool_decide_unpack _); by vm_compute|]. by vm_compute. Qed.
(** setGroupsOnFamily may list a family twice; renaming or removing it then leaves one mention of a family that no longer exists. *)
Theorem C84_twice_refuted : exists m m1 m2, coherent m /\ setGroupsOnFamily "mine" ["A"] m = Ok m1 /\ getGroupArr 0 "A" m1 = Ok [0; 1] /\
  changeFamilyName "mine" "other" m1 = Ok m2 /\ getGroupArr 0 "A" m2 = Throw /\ (let* m := removeFamily "mine" m1 in getGroupArr 0 "A" m) = Throw.
Proof. exact listed_twice. Qed.
Print Assumptions C84_twice_refuted.
Theorem C84_changeFamilyId m o n : valid m -> (forall k, (k, n) ∉ fm_fams m) -> (forall l, ~ in_field m l n) ->
  exists m', changeFamilyId o n m = Ok m' /\ same_content m m' /\ (forall g, has_group m' g <-> has_group m g) /\ same_levels m m' /\
    (forall k x, (k, x) ∈ fm_fams m' <-> exists y, (k, y) ∈ fm_fams m /\ x = if y =? o then n else y) /\
    (forall l e x, id_at m' l e x <-> exists y, id_at m l e y /\ x = if y =? o then n else y).
Proof. exact (changeFamilyId_ok m o n). Qed.
Print Assumptions C84_changeFamilyId.
Example C84_changeFamilyId_some : valid mesh1 /\ (forall k, (k, 77) ∉ fm_fams mesh1) /\ (forall l, ~ in_field mesh1 l 77) /\ (let* m := changeFamilyId (-3) 77 mesh1 in getGroupArr 0 "A" m) = Ok [0; 1].
Proof. split; [exact mesh1_valid|]. split; [apply mesh1_fresh_id|]. split; [apply mesh1_fresh_id|]. by vm_compute. Qed.
(** A group made of a whole level; entities of other levels sharing its ids come with it. *)
Theorem C84_createGroupOnAll m l g nb : valid m -> closed m -> distinct m -> has_level m l nb -> (exists a, fieldOf l m = Some a) -> ~ has_group m g ->
  exists m', createGroupOnAll l g m = Ok m' /\ (forall e, member m' l g e <-> 0 <= e < nb) /\
    (forall l' e, l' <> l -> member m' l' g e <-> exists x, id_at m l' e x /\ in_field m l x) /\
    (forall l' g' e, g' <> g -> member m' l' g' e <-> member m l' g' e) /\ (forall g', has_group m' g' <-> has_group m g' \/ g' = g) /\ same_levels m m' /\
    valid m' /\ closed m' /\ distinct m'.
Proof. exact (createGroupOnAll_ok m l g nb). Qed.
Print Assumptions C84_createGroupOnAll.
Example C84_createGroupOnAll_some : valid mesh1 /\ closed mesh1 /\ distinct mesh1 /\ has_level mesh1 0 4 /\ ~ has_group mesh1 "All" /\ (let* m := createGroupOnAll 0 "All" mesh1 in getGroupArr 0 "All" m) = Ok [0; 1; 2; 3].
Proof. split; [exact mesh1_valid|]. split; [exact mesh1_closed|]. split; [exact mesh1_distinct|]. split; [apply mesh1_level|]. split; [by apply mesh1_no_group|]. by vm_compute. Qed.

(** Refused: a name already taken, a level that does not exist or has no family field. *)
Theorem C84_createGroupOnAll_refused m l g : valid m -> has_group m g \/ (forall nb, ~ has_level m l nb) \/ (forall v, v ∈ fm_levs m -> lv_id v = l -> lv_fam v = None) -> createGroupOnAll l g m = Throw.
Proof. exact (createGroupOnAll_refused m l g). Qed.
Print Assumptions C84_createGroupOnAll_refused.
Example C84_createGroupOnAll_refused_some : valid mesh1 /\ has_group mesh1 "A" /\ createGroupOnAll 0 "A" mesh1 = Throw.
Proof. split; [exact mesh1_valid|]. split; [by eapply mesh1_group|]. by vm_compute. Qed.

(** ** C85: cleaning. *)
Theorem C85_removeOrphanFamilies m : valid m -> exists ret m', removeOrphanFamilies m = Ok (ret, m') /\ same_content m m' /\ same_levels m m' /\ valid m' /\
  (forall k x, (k, x) ∈ fm_fams m' <-> (k, x) ∈ fm_fams m /\ exists l, in_field m l x) /\
  (forall k, k ∈ ret <-> exists x, (k, x) ∈ fm_fams m /\ forall l, ~ in_field m l x) /\
  (forall l x, in_field m' l x <-> in_field m l x) /\
  ((exists l x, in_field m l x) -> forall g, has_group m' g <-> has_group m g) /\
  (closed m -> no_repeat m -> closed m') /\ (no_repeat m -> no_repeat m') /\
  (forall g f, (g, f) ∈ fm_grps m' -> exists f0, (g, f0) ∈ fm_grps m /\ forall n, n ∈ f -> n ∈ f0).
Proof. exact (removeOrphanFamilies_ok m). Qed.
Print Assumptions C85_removeOrphanFamilies.
Example C85_removeOrphanFamilies_some : valid (setFamilyId "spare" 500 mesh1) /\ removeOrphanFamilies (setFamilyId "spare" 500 mesh1) = Ok (["spare"], mesh1).
Proof. split; [apply valid_maps; [exact mesh1_valid|apply FgProofs.ordered_sput|]; apply mesh1_valid|]. by vm_compute. Qed.
Theorem C85_removeFamiliesReferedByNoGroups m : valid m ->
  let m' := removeFamiliesReferedByNoGroups m in same_content m m' /\ same_levels m m' /\ valid m' /\ fm_grps m' = fm_grps m /\ fm_levs m' = fm_levs m /\
  forall k x, (k, x) ∈ fm_fams m' <-> (k, x) ∈ fm_fams m /\ (k = zeroName \/ exists g f, (g, f) ∈ fm_grps m /\ k ∈ f).
Proof. exact (removeFamiliesReferedByNoGroups_ok m). Qed.
Print Assumptions C85_removeFamiliesReferedByNoGroups.
Example C85_removeFamiliesReferedByNoGroups_some : valid mesh1 /\ (fm_fams (removeFamiliesReferedByNoGroups mesh1)).*1 = ["Family_-12"; "Family_-4"; "Family_10"; "mine"].
Proof. split; [exact mesh1_valid|]. by vm_compute. Qed.
Theorem C85_rearrangeFamilies m : valid m -> wp (rearrangeFamilies m)
  (fun m' => same_content m m' /\ same_levels m m' /\ (forall l x, in_field m' l x -> x = 0 \/ exists k, (k, x) ∈ fm_fams m') /\
    (forall k x, (k, x) ∈ fm_fams m' -> (k, x) ∈ fm_fams m /\ (k = zeroName \/ exists g f, (g, f) ∈ fm_grps m /\ k ∈ f) /\ exists l, in_field m' l x) /\
    ((exists l x, in_field m l x) -> forall g, has_group m' g <-> has_group m g) /\
    (coherent m -> no_repeat m -> coherent m' /\ no_repeat m'))
  (exists g f n, (g, f) ∈ fm_grps m /\ n ∈ f /\ (n = zeroName \/ (n, 0) ∈ fm_fams m)).
Proof. exact (rearrangeFamilies_wp m). Qed.
Print Assumptions C85_rearrangeFamilies.
Example C85_rearrangeFamilies_some : valid mesh1 /\ exists m', rearrangeFamilies mesh1 = Ok m' /\ lv_fam <$> fm_levs m' = [Some [-3; -4; 0; -12]; Some [0; 0; 0]; Some [10; 0; 0; 0; 10]].
Proof. split; [exact mesh1_valid|]. eexists. split; [vm_compute; reflexivity|]. by vm_compute. Qed.
