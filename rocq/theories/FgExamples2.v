(** Concrete meshes for the merging, numbering and naming of families. *)
From stdpp Require Import strings.
From Verif Require Import Base DataArray SearchSpec FgModel FgModel2 FgSpec FgSpec2 FgProofs FgProofs2 FgProofs8 FgExamples.

Lemma from_history hist m : foldM doEdit hist new_mesh = Ok m -> coherent m /\ no_repeat m.
Proof. intros H. pose proof (history_ok new_mesh hist new_blank) as W. rewrite H in W. destruct W as (_ & ? & ? & _). done. Qed.

(** A group on cells and faces. *)
Definition mesh2 : fmesh := FM [("Family_-2", -2); ("Family_-4", -4)] [("A", ["Family_-2"; "Family_-4"])] [LV 0 4 (Some [-2; -2; -1; -1]); LV (-1) 3 (Some [-4; -3; -3]); LV 1 5 None].
Lemma mesh2_built : foldM doEdit [AddGroup 0 "A" [0; 1]; AddGroup (-1) "A" [0]] new_mesh = Ok mesh2.
Proof. vm_compute. done. Qed.
Lemma mesh2_coherent : coherent mesh2.
Proof. eapply from_history, mesh2_built. Qed.
Lemma mesh2_nozero g f : (g, f) ∈ fm_grps mesh2 -> zeroName ∉ f.
Proof. unfold mesh2. cbn [fm_grps]. intros [= -> ->]%elem_of_list_singleton. apply (bool_decide_unpack _). by vm_compute. Qed.
Lemma zip_some : exists m', zipFamilies mesh2 = Ok m' /\ (fm_fams m').*1 = ["Family_-2"] /\ getGroupArr 0 "A" m' = Ok [0; 1] /\ getGroupArr (-1) "A" m' = Ok [0].
Proof. eexists. split; [vm_compute; reflexivity|]. by vm_compute. Qed.
Lemma zip_renamed : exists m m1 m2, coherent m /\ zipFamilies m = Ok m1 /\ getGroupArr 0 "A" m1 = Ok [0; 1] /\ changeFamilyName "Family_-2" "X" m1 = Ok m2 /\ getGroupArr 0 "A" m2 = Throw.
Proof. exists mesh2. do 2 eexists. split; [exact mesh2_coherent|]. split; [vm_compute; reflexivity|]. split; [by vm_compute|]. split; [vm_compute; reflexivity|]. by vm_compute. Qed.
Lemma zip_addGroup : exists m m1 m2, coherent m /\ zipFamilies m = Ok m1 /\ getGroupArr (-1) "A" m1 = Ok [0] /\ addGroup 0 (Some ("B", vec [0])) m1 = Ok m2 /\ getGroupArr (-1) "A" m2 = Ok [0; 1; 2].
Proof. exists mesh2. do 2 eexists. split; [exact mesh2_coherent|]. split; [vm_compute; reflexivity|]. split; [by vm_compute|]. split; [vm_compute; reflexivity|]. by vm_compute. Qed.

Lemma in_field1 l x : in_field mesh1 l x -> (l = 0 /\ (x = -3 \/ x = -4 \/ x = -11 \/ x = -12)) \/ (l = -1 /\ (x = 0 \/ x = -8)) \/ (l = 1 /\ (x = 10 \/ x = 0)).
Proof.
  intros (v & a & Hv & <- & Ha & Hx). revert Hv Ha Hx. unfold mesh1. cbn [fm_levs]. rewrite !elem_of_cons, elem_of_nil.
  intros [->|[->|[->|[]]]]; cbn; intros [= <-]; rewrite !elem_of_cons, elem_of_nil; lia.
Qed.
Lemma field1 l a v x : v ∈ fm_levs mesh1 -> lv_id v = l -> lv_fam v = Some a -> x ∈ a -> in_field mesh1 l x.
Proof. intros. exists v, a. done. Qed.
Lemma mesh1_one_level : one_level mesh1.
Proof.
  intros n id (g & f & Hg & Hn & Hid).
  assert (H : id = -3 \/ id = -4 \/ id = -12 \/ id = 10).
  { revert Hg Hn Hid. unfold mesh1. cbn [fm_fams fm_grps]. rewrite !elem_of_cons, !elem_of_nil. intros [[= -> ->]|[[= -> ->]|[[= -> ->]|[]]]]; rewrite !elem_of_cons, elem_of_nil; intros; naive_solver. }
  split.
  - destruct H as [->|[->|[->|H]]].
    + exists 0. eapply (field1 0 _ (LV 0 4 (Some [-3; -4; -11; -12]))); [left|done|done|]. rewrite !elem_of_cons. tauto.
    + exists 0. eapply (field1 0 _ (LV 0 4 (Some [-3; -4; -11; -12]))); [left|done|done|]. rewrite !elem_of_cons. tauto.
    + exists 0. eapply (field1 0 _ (LV 0 4 (Some [-3; -4; -11; -12]))); [left|done|done|]. rewrite !elem_of_cons. tauto.
    + exists 1. rewrite H. eapply (field1 1 _ (LV 1 5 (Some [10; 0; 0; 0; 10]))); [right; right; left|done|done|]. left.
  - intros l l' H1%in_field1 H2%in_field1. lia.
Qed.
Lemma normalize_some : (let* m := normalizeFamIdsMEDFile mesh1 in Ok (lv_fam <$> fm_levs m)) = Ok [Some [-4; -3; -2; -1]; Some [-6; -6; -5]; Some [2; 1; 1; 1; 2]] /\
  (let* m := normalizeFamIdsMEDFile mesh1 in getGroupArr 0 "Z" m) = Ok [0; 3].
Proof. vm_compute. done. Qed.
Lemma trio_some : (let* m := normalizeFamIdsTrio mesh1 in Ok (lv_fam <$> fm_levs m)) = Ok [Some [4; 3; 2; 1]; Some [-2; -2; -1]; Some [0; 0; 0; 0; 0]] /\
  (let* m := normalizeFamIdsTrio mesh1 in getGroupArr 0 "Z" m) = Ok [0; 3].
Proof. vm_compute. done. Qed.
Lemma trio_nodes : exists m m', coherent m /\ one_level m /\ getGroupArr 1 "N" m = Ok [0; 4] /\ normalizeFamIdsTrio m = Ok m' /\ getGroupArr 1 "N" m' = Ok [0; 1; 2; 3; 4].
Proof. exists mesh1. eexists. split; [exact mesh1_coherent|]. split; [exact mesh1_one_level|]. split; [by vm_compute|]. split; [vm_compute; reflexivity|]. by vm_compute. Qed.
(** The mesh obtained from [mesh2] by merging its families. *)
Definition mesh3 : fmesh := FM [("Family_-2", -2)] [("A", ["Family_-2"; "Family_-2"])] [LV 0 4 (Some [-2; -2; -1; -1]); LV (-1) 3 (Some [-2; -3; -3]); LV 1 5 None].
Lemma two_levels_normalized : exists m m1 m2, coherent m /\ zipFamilies m = Ok m1 /\ getGroupArr 0 "A" m1 = Ok [0; 1] /\ normalizeFamIdsMEDFile m1 = Ok m2 /\ getGroupArr 0 "A" m2 = Ok [].
Proof. exists mesh2. do 2 eexists. split; [exact mesh2_coherent|]. split; [vm_compute; reflexivity|]. split; [by vm_compute|]. split; [vm_compute; reflexivity|]. by vm_compute. Qed.
Lemma ensure_nothing : exists m m1, coherent m /\ zipFamilies m = Ok m1 /\ ensureDifferentFamIdsPerLevel m1 = Ok (true, m1) /\ in_field m1 0 (-2) /\ in_field m1 (-1) (-2).
Proof.
  exists mesh2, mesh3. split; [exact mesh2_coherent|]. split; [by vm_compute|]. split; [by vm_compute|].
  split; [exists (LV 0 4 (Some [-2; -2; -1; -1])), [-2; -2; -1; -1]|exists (LV (-1) 3 (Some [-2; -3; -3])), [-2; -3; -3]].
  - split; [left|]. split; [done|]. split; [done|]. left.
  - split; [right; left|]. split; [done|]. split; [done|]. left.
Qed.
(** Cells in group A, faces in group B. *)
Lemma keep_grows : exists m m', coherent m /\ getGroupArr 0 "A" m = Ok [0; 1] /\ keepFamIdsOnlyOnLevs [-2] [-1] m = Ok (false, m') /\ getGroupArr 0 "A" m' = Ok [0; 1; 2; 3].
Proof.
  destruct (foldM doEdit [AddGroup 0 "A" [0; 1]; AddGroup (-1) "B" [0]] new_mesh) as [m| | |] eqn:E; [|exfalso; vm_compute in E; done..]. pose proof (from_history _ _ E) as [Hc _]. vm_compute in E. injection E as <-.
  do 2 eexists. split; [exact Hc|]. split; [by vm_compute|]. split; [vm_compute; reflexivity|]. by vm_compute.
Qed.

(** Groups of a level set all at once. *)
Definition groups1 : list (string * list Z) := [("P", [0; 2]); ("A", [2; 3]); ("E", [])].
Lemma mesh1_unclaimed : unclaimed mesh1.
Proof.
  intros y id H. assert (Hy : y = -12 \/ y = -4 \/ y = -8 \/ y = 10).
  { revert H. unfold mesh1. cbn [fm_fams]. rewrite !elem_of_cons, elem_of_nil. intros [E|[E|[E|[E|[E|[]]]]]]; apply (f_equal fst) in E; cbn [fst] in E.
    - left. by apply (familyName_inj y (-12)).
    - right; left. by apply (familyName_inj y (-4)).
    - right; right; left. by apply (familyName_inj y (-8)).
    - right; right; right. by apply (familyName_inj y 10).
    - discriminate E. }
  exists "Family_-12", (-12). split; [left|]. lia.
Qed.
Lemma mesh1_fit : groups_fit mesh1 0 groups1.
Proof.
  split; [apply (bool_decide_unpack _); by vm_compute|]. split; [apply (bool_decide_unpack _); by vm_compute|]. exists 4. split; [apply mesh1_level|].
  intros g ids e. unfold groups1. rewrite !elem_of_cons, elem_of_nil. intros [[= -> ->]|[[= -> ->]|[[= -> ->]|[]]]]; rewrite ?elem_of_cons, elem_of_nil; lia.
Qed.
Lemma mesh1_size l nb : has_level mesh1 l nb -> nb <= 2147483647.
Proof. intros (v & Hv & _ & <-). revert Hv. unfold mesh1. cbn [fm_levs]. rewrite !elem_of_cons, elem_of_nil. intros [->|[->|[->|[]]]]; done. Qed.
Lemma set_some : (let* m := setGroupsAtLevel 0 ((fun p : string * list Z => Some (p.1, vec p.2)) <$> groups1) mesh1 in let* a := getGroupArr 0 "A" m in let* p := getGroupArr 0 "P" m in let* z := getGroupArr 0 "Z" m in Ok (a, p, z)) = Ok ([2; 3], [0; 2], []).
Proof. by vm_compute. Qed.
Lemma set_claimed : exists m m1 m2, coherent m /\ no_repeat m /\ changeFamilyName "mine" "Family_-14" m = Ok m1 /\ getGroupArr 0 "A" m1 = Ok [0; 1] /\ setGroupsAtLevel (-1) [Some ("P", vec [0; 2])] m1 = Ok m2 /\ getGroupArr 0 "A" m2 = Ok [1].
Proof. exists mesh1. do 2 eexists. split; [exact mesh1_coherent|]. split; [apply mesh1_sound|]. split; [vm_compute; reflexivity|]. split; [by vm_compute|]. split; [vm_compute; reflexivity|]. by vm_compute. Qed.
Lemma set_not_cleared : exists m m', coherent m /\ setGroupsAtLevel 0 [Some ("P", vec [0; 2]); Some ("E", vec [])] m = Ok m' /\ getGroupArr 0 "Z" m' = Ok [] /\ getGroupArr 0 "E" m' = Throw.
Proof. exists mesh1. eexists. split; [exact mesh1_coherent|]. split; [vm_compute; reflexivity|]. by vm_compute. Qed.
Lemma assign_some : (let* m := assignFamilyNameWithGroupName mesh1 in Ok (fm_fams m, getGroupArr 1 "N" m)) = Ok ([("Family_-12", -12); ("Family_-4", -4); ("Family_-8", -8); ("N", 10); ("mine", -3)], Ok [0; 4]).
Proof. by vm_compute. Qed.
Lemma assign_throw_some : (let* m := changeGroupName "N" "mine" mesh1 in assignFamilyNameWithGroupName m) = Throw.
Proof. by vm_compute. Qed.
