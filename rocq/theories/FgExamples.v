(** Concrete meshes for the examples on families and groups. *)
From stdpp Require Import strings.
From Verif Require Import Base DataArray SearchSpec FgModel FgSpec FgProofs FgProofs2 FgProofs8.

(** Four cells, three faces, five nodes; then a history of edits. *)
Definition new_mesh : fmesh := FM [] [] [LV 0 4 None; LV (-1) 3 None; LV 1 5 None].
Definition edits : list edit :=
  [AddGroup 0 "A" [0; 1]; AddGroup 0 "B" [1; 2]; AddGroup (-1) "A" [2]; AddGroup 1 "C" [0; 4]; RemoveGroup "B"; RenameGroup "C" "N"; RenameFamily "Family_-3" "mine"; Rearrange; AddGroup 0 "Z" [0; 3]; RemoveGroupAt (-1) "A"].
Definition mesh1 : fmesh :=
  FM [("Family_-12", -12); ("Family_-4", -4); ("Family_-8", -8); ("Family_10", 10); ("mine", -3)]
    [("A", ["mine"; "Family_-4"]); ("N", ["Family_10"]); ("Z", ["mine"; "Family_-12"])]
    [LV 0 4 (Some [-3; -4; -11; -12]); LV (-1) 3 (Some [0; 0; -8]); LV 1 5 (Some [10; 0; 0; 0; 10])].
Lemma mesh1_built : foldM doEdit edits new_mesh = Ok mesh1.
Proof. vm_compute. done. Qed.
Lemma three_levels a b c : NoDup (lv_id <$> [LV 0 4 a; LV (-1) 3 b; LV 1 5 c]).
Proof. apply (bool_decide_unpack _). vm_compute. done. Qed.
Lemma new_valid : valid new_mesh.
Proof.
  split; [constructor|]. split; [constructor|]. split; [apply three_levels|]. split.
  - intros v. unfold new_mesh. cbn [fm_levs]. rewrite !elem_of_cons, elem_of_nil. intros [->|[->|[->|[]]]]; done.
  - intros v a. unfold new_mesh. cbn [fm_levs]. rewrite !elem_of_cons, elem_of_nil. intros [->|[->|[->|[]]]]; done.
Qed.
Lemma new_blank : blank new_mesh.
Proof.
  split; [exact new_valid|]. split; [done|]. split; [done|]. split.
  - intros l x (v & a & Hv & _ & Ha & _). revert Hv Ha. unfold new_mesh. cbn [fm_levs]. rewrite !elem_of_cons, elem_of_nil. intros [->|[->|[->|[]]]]; done.
  - intros l nb (v & Hv & _ & <-). revert Hv. unfold new_mesh. cbn [fm_levs]. rewrite !elem_of_cons, elem_of_nil. intros [->|[->|[->|[]]]]; done.
Qed.
Lemma mesh1_sound : coherent mesh1 /\ no_repeat mesh1.
Proof. pose proof (history_ok new_mesh edits new_blank) as W. rewrite mesh1_built in W. destruct W as (_ & ? & ? & _). done. Qed.
Lemma mesh1_coherent : coherent mesh1.
Proof. apply mesh1_sound. Qed.
Lemma mesh1_valid : valid mesh1.
Proof. apply mesh1_coherent. Qed.
Lemma mesh1_closed : closed mesh1.
Proof. apply mesh1_coherent. Qed.
Lemma mesh1_distinct : distinct mesh1.
Proof. apply mesh1_coherent. Qed.
Lemma mesh1_group g l : sget g (fm_grps mesh1) = Some l -> has_group mesh1 g.
Proof. intros H. apply has_group_iff; [apply mesh1_valid|eauto]. Qed.
Lemma mesh1_no_group g : sget g (fm_grps mesh1) = None -> ~ has_group mesh1 g.
Proof. intros H [l Hl]%has_group_iff; [congruence|apply mesh1_valid]. Qed.
Lemma mesh1_level : has_level mesh1 0 4 /\ has_level mesh1 (-1) 3 /\ has_level mesh1 1 5.
Proof. split; [|split]; apply has_level_iff; try apply mesh1_valid; eexists; (split; [vm_compute; reflexivity|done]). Qed.
Lemma mesh1_accepts : acceptable mesh1 0 "New" [1; 2].
Proof.
  split; [|split; [done|split]].
  - exists 4. split; [apply mesh1_level|]. intros e. rewrite !elem_of_cons, elem_of_nil. lia.
  - intros i j x y Hij Hx Hy. apply zlook_Some_lt in Hx as Hi. apply zlook_Some_lt in Hy as Hj. change (zlen [1; 2]) with 2 in *. assert (i = 0) by lia. assert (j = 1) by lia. subst. injection Hx as <-. injection Hy as <-. lia.
  - intros e Hm. apply member_iff in Hm as (f & _ & _ & Hf & _); [vm_compute in Hf; done|apply mesh1_valid].
Qed.
Lemma mesh1_fresh_id : (forall k, (k, 77) ∉ fm_fams mesh1) /\ forall l, ~ in_field mesh1 l 77.
Proof.
  split.
  - intros k. unfold mesh1. cbn [fm_fams]. rewrite !elem_of_cons, elem_of_nil. intros [?|[?|[?|[?|[?|[]]]]]]; congruence.
  - intros l (v & a & Hv & _ & Ha & Hx). revert Hv Ha Hx. unfold mesh1. cbn [fm_levs]. rewrite !elem_of_cons, elem_of_nil.
    intros [->|[->|[->|[]]]]; cbn; intros [= <-]; rewrite !elem_of_cons, elem_of_nil; lia.
Qed.
(** A new mesh whose family fields are there, full of 0. *)
Definition zero_mesh : fmesh := FM [] [] [LV 0 2 (Some [0; 0]); LV (-1) 3 (Some [0; 0; 0])].
Lemma zero_blank : blank zero_mesh.
Proof.
  split; [|split; [done|split; [done|split]]].
  - split; [constructor|]. split; [constructor|]. split; [apply (bool_decide_unpack _); vm_compute; done|]. split; intros v; unfold zero_mesh; cbn [fm_levs]; [|intros a]; rewrite !elem_of_cons, elem_of_nil; intros [->|[->|[]]]; try done; cbn; intros [= <-]; done.
  - intros l x (v & a & Hv & _ & Ha & Hx). revert Hv Ha Hx. unfold zero_mesh. cbn [fm_levs]. rewrite !elem_of_cons, elem_of_nil. intros [->|[->|[]]]; cbn; intros [= <-]; rewrite !elem_of_cons, elem_of_nil; lia.
  - intros l nb (v & Hv & _ & <-). revert Hv. unfold zero_mesh. cbn [fm_levs]. rewrite !elem_of_cons, elem_of_nil. intros [->|[->|[]]]; done.
Qed.
Lemma max_id_reused : exists m0 hist m m', blank m0 /\ foldM doEdit hist m0 = Ok m /\ let m1 := removeFamiliesReferedByNoGroups m in
  addGroup 0 (Some ("D", vec [0])) m1 = Ok m' /\ getGroupArr 0 "A" m1 = Ok [0; 1] /\ getGroupArr 0 "A" m' = Ok [0; 1; 2; 3] /\ getGroupArr 0 "D" m' = Ok [0; 2].
Proof.
  exists new_mesh, [AddGroup 0 "A" [0; 1]; AddGroup 0 "B" [2]; RemoveGroup "B"]. do 2 eexists. split; [exact new_blank|]. split; [vm_compute; reflexivity|].
  cbn zeta. split; [vm_compute; reflexivity|]. by vm_compute.
Qed.
Lemma two_levels_lost : exists m0 m m', blank m0 /\ createGroupOnAll 0 "All" m0 = Ok m /\ addGroup 0 (Some ("H", vec [0])) m = Ok m' /\
  getGroupArr (-1) "All" m = Ok [0; 1; 2] /\ getGroupArr (-1) "All" m' = Ok [].
Proof.
  exists zero_mesh. do 2 eexists. split; [exact zero_blank|]. split; [vm_compute; reflexivity|]. split; [vm_compute; reflexivity|]. by vm_compute.
Qed.
Lemma listed_twice : exists m m1 m2, coherent m /\ setGroupsOnFamily "mine" ["A"] m = Ok m1 /\ getGroupArr 0 "A" m1 = Ok [0; 1] /\
  changeFamilyName "mine" "other" m1 = Ok m2 /\ getGroupArr 0 "A" m2 = Throw /\ (let* m := removeFamily "mine" m1 in getGroupArr 0 "A" m) = Throw.
Proof.
  exists mesh1. do 2 eexists. split; [exact mesh1_coherent|]. split; [vm_compute; reflexivity|]. split; [by vm_compute|]. split; [vm_compute; reflexivity|]. by vm_compute.
Qed.
Lemma mesh1_no_other id : ("other", id) ∉ fm_fams mesh1.
Proof. unfold mesh1. cbn [fm_fams]. rewrite !elem_of_cons, elem_of_nil. intros [?|[?|[?|[?|[?|[]]]]]]; congruence. Qed.
