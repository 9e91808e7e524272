(** Meshes for the examples of C104. *)
From Coq Require Import QArith ZifyBool.
From Verif Require Import Base DataArray CellTable CellModel UmModel UmSpec UcProofs6 DgModel DgSpec.
Local Open Scope Z_scope.

(** A square with two corners merged, a sound triangle, a triangle with two nodes, a quadratic square with an edge lost, two quadratic edges on the same line. *)
Definition folded : list cell := [(NORM_QUAD4, [0; 1; 1; 2]); (NORM_TRI3, [0; 1; 2]); (NORM_TRI3, [3; 3; 4]); (NORM_QUAD8, [0; 1; 2; 2; 5; 6; 2; 7]); (NORM_TRI6, [0; 1; 1; 5; 1; 5])].
Definition unfolded : list cell := [(NORM_TRI3, [0; 1; 2]); (NORM_TRI3, [0; 1; 2]); (NORM_POLYGON, [3; 4]); (NORM_TRI6, [0; 1; 2; 5; 6; 7]); (NORM_QPOLYG, [0; 1; 5; 5])].
Definition planeb (q : bool) (c : cell) : bool :=
  match GetCellModel c.1 with Ok k => (cm_dim k =? 2) && eqb (cm_quad k) q && forallb (fun n => 0 <=? n) c.2 && (if q then 4 <=? zlen c.2 else 2 <=? zlen c.2) | _ => false end.
Lemma planeb_ok q c : planeb q c = true -> plane_cell q c.
Proof.
  unfold planeb. intros H. destruct (GetCellModel c.1) as [k| | |] eqn:E; try done. rewrite !andb_true_iff in H. destruct H as (((H1 & H2) & H3) & H4). exists k. split; [done|]. split; [lia|]. split; [by apply eqb_prop|].
  rewrite forallb_forall in H3. split; [intros n Hn; apply elem_of_list_In, H3 in Hn; lia|]. destruct q; lia.
Qed.
Lemma folded_plane : Forall (fun c => exists q, plane_cell q c) folded.
Proof. constructor; [exists false; by apply planeb_ok|]. constructor; [exists false; by apply planeb_ok|]. constructor; [exists false; by apply planeb_ok|]. constructor; [exists true; by apply planeb_ok|]. constructor; [exists true; by apply planeb_ok|]. constructor. Qed.
Lemma folded_mesh : 2 <= um_dim (mk 2 8 folded) /\ um_coords (mk 2 8 folded) <> None /\ stores (mk 2 8 folded) folded /\ typed (mk 2 8 folded) folded.
Proof. destruct (mk_ok 2 8 folded ltac:(lia)) as (H1 & H2 & _). done. Qed.
(** Solids: a hexahedron closed to a pyramid, a pyramid closed to a tetrahedron, a sound pentahedron. *)
Definition solids : list cell := [(NORM_HEXA8, [0; 1; 2; 3; 4; 4; 4; 4]); (NORM_PYRA5, [5; 6; 7; 7; 8]); (NORM_PENTA6, [0; 1; 2; 3; 4; 5])].
Definition solids' : list cell := [(NORM_PYRA5, [0; 1; 2; 3; 4]); (NORM_TETRA4, [5; 6; 7; 8]); (NORM_PENTA6, [0; 1; 2; 3; 4; 5])].
(** Polyhedra with the faces of a hexahedron and of a hexagonal prism, and a sound tetrahedron. *)
Definition polys : list cell := [(NORM_POLYHED, joined (solid_faces (NORM_HEXA8, [7; 6; 5; 4; 3; 2; 1; 0]))); (NORM_TETRA4, [0; 1; 2; 8]); (NORM_POLYHED, joined (solid_faces (NORM_HEXGP12, [0; 2; 4; 6; 8; 10; 1; 3; 5; 7; 9; 11])))].
Definition polys' : list cell := [(NORM_HEXA8, [7; 6; 5; 4; 3; 2; 1; 0]); (NORM_TETRA4, [0; 1; 2; 8]); (NORM_HEXGP12, [0; 2; 4; 6; 8; 10; 1; 3; 5; 7; 9; 11])].
Lemma nodup_b (l : list Z) : bool_decide (NoDup l) = true -> NoDup l.
Proof. apply bool_decide_eq_true. Qed.
Lemma nonneg_b (l : list Z) : forallb (fun n => 0 <=? n) l = true -> forall n, n ∈ l -> 0 <= n.
Proof. intros H n Hn. rewrite forallb_forall in H. apply elem_of_list_In, H in Hn. lia. Qed.
Lemma polys_ok : Forall2 unpolyzed polys polys'.
Proof.
  constructor.
  { right. right. left. exists NORM_HEXA8, [7; 6; 5; 4; 3; 2; 1; 0]. split; [set_solver|]. split; [done|]. split; [by apply nonneg_b|]. split; [by apply nodup_b|]. done. }
  constructor; [right; right; right; eexists; split; [reflexivity|]; done|].
  constructor; [|constructor].
  right. right. left. exists NORM_HEXGP12, [0; 2; 4; 6; 8; 10; 1; 3; 5; 7; 9; 11]. split; [set_solver|]. split; [done|]. split; [by apply nonneg_b|]. split; [by apply nodup_b|]. done.
Qed.
(** A pyramid made of a hexahedron, and its faces. *)
Definition closed_hexa : list Z := [0; 1; 2; 3; 4; 4; 4; 4].
Lemma closed_ok : forall f, f ∈ solid_faces (NORM_HEXA8, closed_hexa) -> ~ pinched f.
Proof.
  intros f Hf (a & b & c & d & -> & H). vm_compute in Hf.
  repeat (apply elem_of_cons in Hf as [Hf|Hf]; [injection Hf as -> -> -> ->; destruct H as [(H1 & H2 & H3)|(H1 & H2 & H3)]; congruence|]). by apply elem_of_nil in Hf.
Qed.
