(** C36: time labels. *)
From Verif Require Import Base TimeModel TimeSpec TimeProofs.

(** After declareAsNew the label of the object is strictly greater than every label that existed, in any history, and the other labels
    are unchanged. *)
Theorem C36_declare_newest cs s i s' : run tstart cs = Ok s -> declareAsNew s i = Ok s' ->
  exists l, label s' i = Some l /\ (forall j lj, label s j = Some lj -> lj < l) /\ (forall j, j <> i -> label s' j = label s j).
Proof. exact (declare_newest cs s i s'). Qed.
Print Assumptions C36_declare_newest.

(** updateTime sets the label of an aggregate to the largest of its own label and those of its components, and touches no other. *)
Theorem C36_updateTime s i s' : updateTime s i = Ok s' ->
  exists ks li l', kids s i = Some ks /\ label s i = Some li /\ label s' i = Some l' /\ li <= l' /\
    (exists j, j ∈ i :: ks /\ label s j = Some l') /\ (forall j lj, j ∈ i :: ks -> label s j = Some lj -> lj <= l') /\
    (forall j, j <> i -> label s' j = label s j).
Proof. exact (updateTime_ok s i s'). Qed.
Print Assumptions C36_updateTime.

(** The overseer of an aggregate of arrays: whatever happened before, and whatever happens since it took its reference (creations,
    copies, updates, modifications, other objects' forced labels), checkConst throws if and only if the aggregate or one of its
    components was declared modified since; otherwise it returns normally. *)
Theorem C36_checkConst cs0 s0 i ks s1 o cs s2 :
  run tstart cs0 = Ok s0 -> kids s0 i = Some ks -> (forall j, j ∈ ks -> kids s0 j = Some []) ->
  takes_reference s0 i s1 o -> Forall (fun c => forall j, j ∈ i :: ks -> ~ forces j c) cs -> run s1 cs = Ok s2 ->
  (checkConst s2 o = Throw <-> exists c j, c ∈ cs /\ j ∈ i :: ks /\ modifies j c) /\
  (~ (exists c j, c ∈ cs /\ j ∈ i :: ks /\ modifies j c) -> exists s3, checkConst s2 o = Ok s3).
Proof. exact (overseer_ok cs0 s0 i ks s1 o cs s2). Qed.
Print Assumptions C36_checkConst.

(** Two arrays (0, 1) and a mesh on them (2); then the mesh is updated, an array created; then the second array is modified. *)
Example C36_ex : exists s0 s1 s2 o s3,
  run tstart [TNew []; TNew []; TNew [0; 1]; TDeclare 1] = Ok s0 /\ kids s0 2 = Some [0; 1] /\ kids s0 0 = Some [] /\ kids s0 1 = Some [] /\
  takes_reference s0 2 s1 o /\ run s1 [TUpdate 2; TNew []; TDeclare 3] = Ok s2 /\ checkConst s2 o = Ok s2 /\
  run s2 [TDeclare 1; TUpdate 2] = Ok s3 /\ checkConst s3 o = Throw.
Proof.
  eexists _, _, _, _, _. split; [vm_compute; reflexivity|]. split; [reflexivity|]. split; [reflexivity|]. split; [reflexivity|].
  split; [left; vm_compute; reflexivity|]. split; [vm_compute; reflexivity|]. split; [vm_compute; reflexivity|]. split; [vm_compute; reflexivity|]. vm_compute; reflexivity.
Qed.

(** No object: construction and checkConst throw. *)
Theorem C36_null s o : overseerNew s None = Throw /\ (o.1 = None -> checkConst s o = Throw) /\
  (forall s' o' b, keepTrackOfNewTL s o None = Ok (s', o', b) -> checkConst s' o' = Throw).
Proof. exact (null_ok s o). Qed.
Print Assumptions C36_null.

(** An aggregate of aggregates, such as a field (2) on a mesh (1) with coordinates (0), or a field, its time discretisation and its
    array: updateTime of the field does not call the one of the mesh, so that a modification of the coordinates is not seen. *)
Theorem C36_nested_refuted : exists s0 s1 o s2 s3,
  run tstart [TNew []; TNew [0]; TNew [1]] = Ok s0 /\ takes_reference s0 2 s1 o /\ run s1 [TDeclare 0] = Ok s2 /\ checkConst s2 o = Ok s3.
Proof.
  eexists _, _, _, _, _. split; [vm_compute; reflexivity|]. split; [left; vm_compute; reflexivity|]. split; vm_compute; reflexivity.
Qed.
Print Assumptions C36_nested_refuted.
