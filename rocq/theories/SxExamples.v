(** Meshes for the examples of C105. *)
From Coq Require Import QArith.
From Verif Require Import Base DataArray CellTable CellModel UmModel UmSpec DgModel DgSpec DgExamples SxModel SxSpec.
Local Open Scope Z_scope.

Ltac each H := repeat (apply elem_of_cons in H as [->|H]; [|]); [..|by apply elem_of_nil in H].
Definition plate : list cell := [(NORM_TRI3, [0; 1; 2]); (NORM_QUAD4, [1; 4; 5; 2]); (NORM_POLYGON, [2; 5; 7; 6; 3])].
Lemma plate_sizes : forall c, c ∈ plate -> (c.1 = NORM_QUAD4 -> zlen c.2 = 4) /\ (c.1 = NORM_HEXA8 -> zlen c.2 = 8).
Proof. intros c H. unfold plate in H. each H; split; done. Qed.
Lemma plate_able : forall i c, i ∈ [2; 1; 1] -> plate @ i = Some c -> poly_able 2 c.
Proof. intros i c _ H%zlook_elem. unfold plate in H. each H; eexists; (split; [reflexivity|done]). Qed.
Definition line : list cell := [(NORM_SEG2, [0; 1]); (NORM_SEG2, [1; 1]); (NORM_SEG3, [1; 3; 4]); (NORM_SEG3, [2; 2; 4])].
Lemma line_ok : forall c, c ∈ line -> (c.1 = NORM_SEG2 \/ c.1 = NORM_SEG3) /\ 2 <= zlen c.2.
Proof. intros c H. unfold line in H. each H; (split; [first [by left|by right]|done]). Qed.
Definition arcs : list cell := [(NORM_TRI6, [0; 1; 2; 3; 4; 5]); (NORM_QUAD9, [0; 1; 2; 3; 4; 5; 6; 7; 8]); (NORM_QPOLYG, [4; 5; 6; 7; 8; 0]); (NORM_TRI3, [6; 7; 8])].
Lemma arcs_ok : forall c, c ∈ arcs -> sized c.
Proof. intros c H. unfold arcs in H. each H; (eexists; split; [reflexivity|]; split; [done|]); first [done|intros _; exists 3; done]. Qed.
Definition blocks : list cell := [(NORM_TETRA4, [0; 1; 2; 3]); (NORM_POLYHED, [0; 1; 2; -1; 0; 2; 1]); (NORM_TETRA4, [2; 3; 4; 5])].
Lemma blocks_able : forall i c, i ∈ [1; 0] -> blocks @ i = Some c -> poly_able 3 c.
Proof.
  intros i c _ H%zlook_elem. unfold blocks in H. each H; [left; split; [left|done]|right|left; split; [left|done]].
  exists [[0; 1; 2]; [0; 2; 1]]. split; [done|]. split; [done|]. intros f Hf. each Hf; intros Hx; rewrite !elem_of_cons, elem_of_nil in Hx; decompose [or] Hx; done.
Qed.
Definition solids : list cell := [(NORM_HEXA8, [0; 1; 2; 3; 4; 5; 6; 7]); (NORM_PYRA5, [4; 5; 6; 7; 8]); (NORM_TETRA4, [8; 0; 1; 2])].
Lemma solids_ok : Forall (usual 3) solids.
Proof.
  apply Forall_forall. intros c H. unfold solids in H. each H; (split; [cbn [fst]; rewrite !elem_of_cons; tauto|]; split; [done|]; split; [apply nonneg_b; reflexivity|apply nodup_b; reflexivity]).
Qed.
Lemma solids_sizes : forall c, c ∈ solids -> (c.1 = NORM_QUAD4 -> zlen c.2 = 4) /\ (c.1 = NORM_HEXA8 -> zlen c.2 = 8).
Proof. intros c H. unfold solids in H. each H; split; done. Qed.
