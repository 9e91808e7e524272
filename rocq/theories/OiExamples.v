(** Meshes for the examples of C106. *)
From Coq Require Import QArith.
From Verif Require Import Base DataArray CellTable CellModel CellSpec UmModel UmSpec UcProofs6 SxExamples OiModel OiSpec.
Local Open Scope Z_scope.

Definition tiles : list cell := [(NORM_TRI3, [0; 1; 2]); (NORM_QUAD8, [0; 1; 2; 3; 4; 5; 6; 7]); (NORM_POLYGON, [2; 5; 7; 6; 3]); (NORM_TRI3, [6; 7; 8])].
Lemma tiles_inv : forall c, c ∈ tiles -> can_invert 2 c.
Proof.
  intros c H. unfold tiles in H. each H; (eexists; split; [reflexivity|]; split; [reflexivity|]).
  1,2,4: left; split; [cbn [fst]; unfold inverted; rewrite !elem_of_cons; tauto|reflexivity]. right; left; split; [reflexivity|done].
Qed.
Lemma solids_inv : forall c, c ∈ solids -> can_invert 3 c.
Proof.
  intros c H. unfold solids in H. each H; (eexists; split; [reflexivity|]; split; [reflexivity|]); left; (split; [cbn [fst]; unfold inverted; rewrite !elem_of_cons; tauto|reflexivity]).
Qed.
Lemma line_change : forall c, c ∈ line -> can_change 1 c.
Proof. intros c H. unfold line in H. each H; (eexists; split; [reflexivity|]; split; [reflexivity|]); (split; [reflexivity|done]). Qed.
Lemma tiles_change : forall c, c ∈ tiles -> can_change 2 c.
Proof.
  intros c H. unfold tiles in H. each H; (eexists; split; [reflexivity|]; split; [reflexivity|]); unfold shape2D; cbn; try done. split; [vm_compute; discriminate|by exists 4].
Qed.
Lemma tiles_known : forall c, c ∈ tiles -> exists k, GetCellModel c.1 = Ok k.
Proof. intros c H. unfold tiles in H. each H; eexists; reflexivity. Qed.
(** The inverter of SEG3 at work on a mesh, and a triangle with a node at its centre. *)
Lemma seg3_spoilt : exists a b, invertOrientationOfAllCells (mk 1 3 [(NORM_SEG3, a)]) = Ok (mk 1 3 [(NORM_SEG3, b)]) /\ zlen a = 3 /\ ~ turned_over (NORM_SEG3, a) (NORM_SEG3, b).
Proof.
  exists [0; 1; 2], [2; 1; 0]. split; [vm_compute; reflexivity|]. split; [done|]. intros (_ & _ & k & Hk & H). injection Hk as <-. cbn in H. destruct H as ([[x y] l] & H1 & H2). cbn in H1, H2. injection H1 as <- <- <-. discriminate H2.
Qed.
Lemma tri7_spoilt : exists a, zlen a = 7 /\ changeOrientationOfCells (mk 2 7 [(NORM_TRI7, a)]) = UB.
Proof. exists [0; 1; 2; 3; 4; 5; 6]. split; [done|]. vm_compute. reflexivity. Qed.
