(** Meshes for the examples of C107. *)
From Verif Require Import Base CellTable CellModel UmModel UmSpec SxExamples.
Local Open Scope Z_scope.

Definition quads : list cell := [(NORM_QUAD4, [0; 1; 4; 3]); (NORM_QUAD4, [1; 2; 5; 4]); (NORM_QUAD4, [3; 4; 7; 6])].
Lemma quads_ok : forall c, c ∈ quads -> c.1 = NORM_QUAD4 /\ zlen c.2 = 4.
Proof. intros c H. unfold quads in H. each H; done. Qed.
Definition polygons : list cell := [(NORM_POLYGON, [0; 1; 2]); (NORM_POLYGON, [1; 2; 5; 4]); (NORM_POLYGON, [3; 4; 7; 6; 5])].
Lemma polygons_ok : forall c, c ∈ polygons -> c.1 = NORM_POLYGON /\ 1 <= zlen c.2.
Proof. intros c H. unfold polygons in H. each H; done. Qed.
