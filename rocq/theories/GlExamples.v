(** Localizations on the mesh of triangles and quadrangles of TyExamples. *)
From Coq Require Import QArith ZifyBool ZifyNat.
From Verif Require Import Base DataArray IndexSpec CellTable UmModel UmSpec UcProofs6 TyExamples GlModel GlSpec.
Local Open Scope Z_scope.
Definition ref3 : list Q := [0; 0; 1; 0; 0; 1]%Q.
Definition ref4 : list Q := [-(1); -(1); 1; -(1); 1; 1; -(1); 1]%Q.
(** One point and three points in the triangle, one point in the quadrangle. *)
Definition on_tri : call := OnType NORM_TRI3 ref3 [1 # 3; 1 # 3]%Q [1 # 2]%Q.
Definition on_one : call := OnCells [2] ref3 [1 # 6; 1 # 6; 2 # 3; 1 # 6; 1 # 6; 2 # 3]%Q [1 # 6; 1 # 6; 1 # 6]%Q.
Definition on_quad : call := OnType NORM_QUAD4 ref4 [0; 0]%Q [4]%Q.
Definition tri1 : gloc := GL NORM_TRI3 ref3 [1 # 3; 1 # 3]%Q [1 # 2]%Q.
Definition tri3 : gloc := GL NORM_TRI3 ref3 [1 # 6; 1 # 6; 2 # 3; 1 # 6; 1 # 6; 2 # 3]%Q [1 # 6; 1 # 6; 1 # 6]%Q.
Definition quad1 : gloc := GL NORM_QUAD4 ref4 [0; 0]%Q [4]%Q.
(** A triangle whose point is slightly off, and a quadrangle that is the same. *)
Definition other : gauss := GD (Some [1; 0; 0]) [quad1; GL NORM_TRI3 ref3 [(1 # 3) + (1 # 1000000000000); 1 # 3]%Q [1 # 2]%Q].
Definition all_set : gauss := GD (Some [0; 2; 1; 0; 2]) [tri1; tri3; quad1].
Lemma tri_fits : fits NORM_TRI3 ref3 [1 # 3; 1 # 3]%Q [1 # 2]%Q.
Proof. eexists. split; [reflexivity|]. split; [intros _; reflexivity|reflexivity]. Qed.
Lemma tri3_fits : fits NORM_TRI3 ref3 [1 # 6; 1 # 6; 2 # 3; 1 # 6; 1 # 6; 2 # 3]%Q [1 # 6; 1 # 6; 1 # 6]%Q.
Proof. eexists. split; [reflexivity|]. split; [intros _; reflexivity|reflexivity]. Qed.
Lemma on_tri_correct : correct 2 mixed_cells on_tri.
Proof. split; [exact tri_fits|]. eexists. split; [reflexivity|done]. Qed.
Lemma on_one_correct : correct 2 mixed_cells on_one.
Proof. split; [done|]. exists NORM_TRI3. split; [exact tri3_fits|]. intros i Hi. apply elem_of_list_singleton in Hi as ->. eexists. split; reflexivity. Qed.
Lemma on_one_gives : gives 2 mixed_cells on_one 2 tri3.
Proof. split; [exact on_one_correct|]. exists (NORM_TRI3, [3; 5; 4]). split; [done|]. split; [left|done]. Qed.
Lemma all_set_good : good 5 all_set.
Proof. split; [done|]. intros id Hid. right. change (0 <= id < 3). repeat (apply elem_of_cons in Hid as [->|Hid]; [lia|]). by apply elem_of_nil in Hid. Qed.
Lemma all_set_complete : complete all_set.
Proof. exists [0; 2; 1; 0; 2]. split; [done|]. intros id Hid. change (0 <= id < 3). repeat (apply elem_of_cons in Hid as [->|Hid]; [lia|]). by apply elem_of_nil in Hid. Qed.
Lemma other_complete : complete other.
Proof. exists [1; 0; 0]. split; [done|]. intros id Hid. change (0 <= id < 2). repeat (apply elem_of_cons in Hid as [->|Hid]; [lia|]). by apply elem_of_nil in Hid. Qed.
Lemma plain_example : forall g l, g ∈ [all_set; other] -> l ∈ gd_loc g -> plain l.
Proof. intros g l Hg Hl. repeat (apply elem_of_cons in Hg as [->|Hg]; [cbn in Hl; repeat (apply elem_of_cons in Hl as [->|Hl]; [done|]); by apply elem_of_nil in Hl|]). by apply elem_of_nil in Hg. Qed.
(** Two points, with one localization. *)
Definition dots : gauss := GD (Some [0; 0]) [GL NORM_POINT1 [] [] [1%Q]].
