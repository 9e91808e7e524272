(** Families and groups of a MED file mesh: merging and numbering families, setting the groups of a level, naming families. *)
From stdpp Require Import strings.
From Verif Require Import Base DataArray SearchSpec FgModel FgModel2 FgSpec FgSpec2 FgProofs9 FgProofs10 FgProofs11 FgExamples FgExamples2.

(** ** C86: merging the families of the same groups. *)
Theorem C86_zipFamilies m : valid m -> distinct m -> (forall g f, (g, f) ∈ fm_grps m -> zeroName ∉ f) ->
  exists m', zipFamilies m = Ok m' /\ valid m' /\ same_content m m' /\ same_levels m m' /\ (forall g, has_group m' g <-> has_group m g) /\
    (forall n x, (n, x) ∈ fm_fams m' -> (n, x) ∈ fm_fams m) /\
    (forall n n' x x', (n, x) ∈ fm_fams m' -> (n', x') ∈ fm_fams m' -> alike m' n n' -> n = n').
Proof. exact (zipFamilies_ok m). Qed.
Print Assumptions C86_zipFamilies.
Example C86_zipFamilies_some : coherent mesh2 /\ (forall g f, (g, f) ∈ fm_grps mesh2 -> zeroName ∉ f) /\
  exists m', zipFamilies mesh2 = Ok m' /\ (fm_fams m').*1 = ["Family_-2"] /\ getGroupArr 0 "A" m' = Ok [0; 1] /\ getGroupArr (-1) "A" m' = Ok [0].
Proof. split; [exact mesh2_coherent|]. split; [exact mesh2_nozero|exact zip_some]. Qed.
Theorem C86_zipFamilies_throw m : (exists g f, (g, f) ∈ fm_grps m /\ zeroName ∈ f) -> zipFamilies m = Throw.
Proof. exact (zipFamilies_throw m). Qed.
Print Assumptions C86_zipFamilies_throw.
Example C86_zipFamilies_throw_some : exists m, (exists g f, (g, f) ∈ fm_grps m /\ zeroName ∈ f) /\ zipFamilies m = Throw.
Proof. exists (FM [] [("A", [zeroName])] []). split; [exists "A", [zeroName]; split; left|by vm_compute]. Qed.
(** Merged families are listed twice in their groups: renaming one makes the group unreadable. *)
Theorem C86_renamed_refuted : exists m m1 m2, coherent m /\ zipFamilies m = Ok m1 /\ getGroupArr 0 "A" m1 = Ok [0; 1] /\ changeFamilyName "Family_-2" "X" m1 = Ok m2 /\ getGroupArr 0 "A" m2 = Throw.
Proof. exact zip_renamed. Qed.
Print Assumptions C86_renamed_refuted.
(** A merged family may live on two levels: a group added on one level changes a group on the other. *)
Theorem C86_addGroup_refuted : exists m m1 m2, coherent m /\ zipFamilies m = Ok m1 /\ getGroupArr (-1) "A" m1 = Ok [0] /\ addGroup 0 (Some ("B", vec [0])) m1 = Ok m2 /\ getGroupArr (-1) "A" m2 = Ok [0; 1; 2].
Proof. exact zip_addGroup. Qed.
Print Assumptions C86_addGroup_refuted.

(** ** C87: numbering of the families. *)
Theorem C87_normalizeFamIdsMEDFile m : valid m -> distinct m -> one_level m -> fm_fams m <> [] -> exists m', normalizeFamIdsMEDFile m = Ok m' /\
  valid m' /\ same_content m m' /\ same_levels m m' /\ (forall g, has_group m' g <-> has_group m g) /\ (forall n, (exists x, (n, x) ∈ fm_fams m') <-> exists x, (n, x) ∈ fm_fams m) /\
  (forall l x, in_field m' l x -> if decide (l = 1) then 1 <= x else x <= -1) /\ (forall l l' x, in_field m' l x -> in_field m' l' x -> l = l') /\ one_level m'.
Proof. exact (normalizeMEDFile_ok m). Qed.
Print Assumptions C87_normalizeFamIdsMEDFile.
Example C87_normalizeFamIdsMEDFile_some : coherent mesh1 /\ one_level mesh1 /\ fm_fams mesh1 <> [] /\
  (let* m := normalizeFamIdsMEDFile mesh1 in Ok (lv_fam <$> fm_levs m)) = Ok [Some [-4; -3; -2; -1]; Some [-6; -6; -5]; Some [2; 1; 1; 1; 2]] /\
  (let* m := normalizeFamIdsMEDFile mesh1 in getGroupArr 0 "Z" m) = Ok [0; 3].
Proof. split; [exact mesh1_coherent|]. split; [exact mesh1_one_level|]. split; [done|exact normalize_some]. Qed.
(** The other convention: cells positive, faces negative, everything else 0; so the groups of nodes become all the nodes. *)
Theorem C87_normalizeFamIdsTrio m : valid m -> distinct m -> one_level m -> fm_fams m <> [] -> exists m', normalizeFamIdsTrio m = Ok m' /\
  valid m' /\ same_levels m m' /\ (forall g, has_group m' g <-> has_group m g) /\
  (forall l x, in_field m' l x -> if decide (l = 0) then 1 <= x else if decide (l = -1) then x <= -1 else x = 0) /\
  (forall l g e, l = 0 \/ l = -1 -> member m' l g e <-> member m l g e) /\
  (forall l g e, l <> 0 -> l <> -1 -> member m' l g e <-> (exists x, id_at m l e x) /\ exists l' e', l' <> 0 /\ l' <> -1 /\ member m l' g e').
Proof. exact (normalizeTrio_ok m). Qed.
Print Assumptions C87_normalizeFamIdsTrio.
Example C87_normalizeFamIdsTrio_some : coherent mesh1 /\ one_level mesh1 /\ fm_fams mesh1 <> [] /\
  (let* m := normalizeFamIdsTrio mesh1 in Ok (lv_fam <$> fm_levs m)) = Ok [Some [4; 3; 2; 1]; Some [-2; -2; -1]; Some [0; 0; 0; 0; 0]] /\
  (let* m := normalizeFamIdsTrio mesh1 in getGroupArr 0 "Z" m) = Ok [0; 3].
Proof. split; [exact mesh1_coherent|]. split; [exact mesh1_one_level|]. split; [done|exact trio_some]. Qed.
Theorem C87_trio_nodes_refuted : exists m m', coherent m /\ one_level m /\ getGroupArr 1 "N" m = Ok [0; 4] /\ normalizeFamIdsTrio m = Ok m' /\ getGroupArr 1 "N" m' = Ok [0; 1; 2; 3; 4].
Proof. exact trio_nodes. Qed.
Print Assumptions C87_trio_nodes_refuted.
Theorem C87_no_family m : fm_fams m = [] -> normalizeFamIdsMEDFile m = Throw /\ normalizeFamIdsTrio m = Throw.
Proof. exact (normalize_throw m). Qed.
Print Assumptions C87_no_family.
Example C87_no_family_some : coherent new_mesh /\ fm_fams new_mesh = [] /\ normalizeFamIdsMEDFile new_mesh = Throw.
Proof. split; [apply (from_history []); by vm_compute|]. split; [done|by vm_compute]. Qed.
(** ensureDifferentFamIdsPerLevel leaves an id on two levels, and then numbering the families loses entities of the groups. *)
Theorem C87_ensure_refuted : exists m m1, coherent m /\ zipFamilies m = Ok m1 /\ ensureDifferentFamIdsPerLevel m1 = Ok (true, m1) /\ in_field m1 0 (-2) /\ in_field m1 (-1) (-2).
Proof. exact ensure_nothing. Qed.
Print Assumptions C87_ensure_refuted.
Theorem C87_two_levels_refuted : exists m m1 m2, coherent m /\ zipFamilies m = Ok m1 /\ getGroupArr 0 "A" m1 = Ok [0; 1] /\ normalizeFamIdsMEDFile m1 = Ok m2 /\ getGroupArr 0 "A" m2 = Ok [].
Proof. exact two_levels_normalized. Qed.
Print Assumptions C87_two_levels_refuted.
(** keepFamIdsOnlyOnLevs takes an id above those of the families, which the entities outside all groups may already have. *)
Theorem C87_keepFamIdsOnlyOnLevs_refuted : exists m m', coherent m /\ getGroupArr 0 "A" m = Ok [0; 1] /\ keepFamIdsOnlyOnLevs [-2] [-1] m = Ok (false, m') /\ getGroupArr 0 "A" m' = Ok [0; 1; 2; 3].
Proof. exact keep_grows. Qed.
Print Assumptions C87_keepFamIdsOnlyOnLevs_refuted.

(** ** C88: the groups of a level set at once, the names of the families. *)
Theorem C88_setGroupsAtLevel m l named : coherent m -> unclaimed m -> (forall nb, has_level m l nb -> nb <= 2147483647) -> named <> [] ->
  wp (setGroupsAtLevel l ((fun p : string * list Z => Some (p.1, vec p.2)) <$> named) m)
    (fun m' => groups_fit m l named /\ groups_set m l named m' /\ coherent m' /\ unclaimed m') (~ groups_fit m l named).
Proof. exact (setGroupsAtLevel_wp m l named). Qed.
Print Assumptions C88_setGroupsAtLevel.
Example C88_setGroupsAtLevel_some : coherent mesh1 /\ unclaimed mesh1 /\ (forall l nb, has_level mesh1 l nb -> nb <= 2147483647) /\ groups_fit mesh1 0 groups1 /\
  (let* m := setGroupsAtLevel 0 ((fun p : string * list Z => Some (p.1, vec p.2)) <$> groups1) mesh1 in
   let* a := getGroupArr 0 "A" m in let* p := getGroupArr 0 "P" m in let* z := getGroupArr 0 "Z" m in Ok (a, p, z)) = Ok ([2; 3], [0; 2], []).
Proof. split; [exact mesh1_coherent|]. split; [exact mesh1_unclaimed|]. split; [exact mesh1_size|]. split; [exact mesh1_fit|exact set_some]. Qed.
(** A family that was renamed Family_<id> is overwritten by the family created with this id. *)
Theorem C88_claimed_refuted : exists m m1 m2, coherent m /\ no_repeat m /\ changeFamilyName "mine" "Family_-14" m = Ok m1 /\ getGroupArr 0 "A" m1 = Ok [0; 1] /\
  setGroupsAtLevel (-1) [Some ("P", vec [0; 2])] m1 = Ok m2 /\ getGroupArr 0 "A" m2 = Ok [1].
Proof. exact set_claimed. Qed.
Print Assumptions C88_claimed_refuted.
(** The earlier groups stay, without entities on this level; a group given without entity does not exist afterwards. *)
Theorem C88_cleared_refuted : exists m m', coherent m /\ setGroupsAtLevel 0 [Some ("P", vec [0; 2]); Some ("E", vec [])] m = Ok m' /\ getGroupArr 0 "Z" m' = Ok [] /\ getGroupArr 0 "E" m' = Throw.
Proof. exact set_not_cleared. Qed.
Print Assumptions C88_cleared_refuted.
Theorem C88_assignFamilyNameWithGroupName m : valid m -> closed m -> wp (assignFamilyNameWithGroupName m)
  (fun m' => same_content m m' /\ same_levels m m' /\ (forall g, has_group m' g <-> has_group m g) /\ valid m' /\ closed m' /\
    (forall k x, (k, x) ∈ fm_fams m' <-> exists n, (n, x) ∈ fm_fams m /\ new_name m n k) /\
    (forall l x, in_field m' l x <-> in_field m l x))
  (exists n n' k x x', (n, x) ∈ fm_fams m /\ (n', x') ∈ fm_fams m /\ n <> n' /\ new_name m n k /\ new_name m n' k).
Proof. exact (assign_wp m). Qed.
Print Assumptions C88_assignFamilyNameWithGroupName.
Example C88_assignFamilyNameWithGroupName_some : valid mesh1 /\ closed mesh1 /\
  (let* m := assignFamilyNameWithGroupName mesh1 in Ok (fm_fams m, getGroupArr 1 "N" m)) = Ok ([("Family_-12", -12); ("Family_-4", -4); ("Family_-8", -8); ("N", 10); ("mine", -3)], Ok [0; 4]) /\
  (let* m := changeGroupName "N" "mine" mesh1 in assignFamilyNameWithGroupName m) = Throw.
Proof. split; [exact mesh1_valid|]. split; [exact mesh1_closed|]. split; [exact assign_some|exact assign_throw_some]. Qed.
