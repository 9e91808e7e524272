(** C63: unstructured meshes are built cell by cell and checked. *)
From Coq Require Import QArith.
From Verif Require Import Base DataArray FillLib IndexSpec CellTable CellSpec UmModel UmSpec UmProofs3 UmProofs7.
Local Open Scope Z_scope.

(** allocateCells leaves a mesh without cells, whatever it had. *)
Theorem C63_allocate m n : 0 <= n -> exists m', allocateCells m n = Ok m' /\ stores m' [] /\ typed m' [] /\ um_dim m' = um_dim m /\ um_coords m' = um_coords m.
Proof. exact (allocate_ok m n). Qed.
Print Assumptions C63_allocate.

(** insertNextCell appends exactly the given cell; it throws exactly when the type or its number of nodes does not suit. *)
Theorem C63_insert m cells t ns : stores m cells -> typed m cells -> insertable (um_dim m) (t, ns) ->
  exists m', insertNextCell m t (zlen ns) ns = Ok m' /\ stores m' (cells ++ [(t, ns)]) /\ typed m' (cells ++ [(t, ns)]) /\ um_dim m' = um_dim m /\ um_coords m' = um_coords m.
Proof. exact (insert_ok m cells t ns). Qed.
Print Assumptions C63_insert.
Theorem C63_insert_throws m cells t ns : stores m cells -> typed m cells -> insertNextCell m t (zlen ns) ns = Throw <-> ~ insertable (um_dim m) (t, ns).
Proof. exact (insert_throw m cells t ns). Qed.
Print Assumptions C63_insert_throws.

(** A mesh built by a sequence of insertions has the cells of the sequence. *)
Theorem C63_build m n cells : 0 <= n -> (forall c, c ∈ cells -> insertable (um_dim m) c) ->
  exists m', (let* m := allocateCells m n in foldM (fun m (c : cell) => insertNextCell m c.1 (zlen c.2) c.2) cells m) = Ok m' /\ stores m' cells /\ typed m' cells /\ um_dim m' = um_dim m /\ um_coords m' = um_coords m.
Proof. exact (build_ok m n cells). Qed.
Print Assumptions C63_build.

(** checkConsistency accepts exactly the meshes whose cells are valid, and throws on the others. *)
Theorem C63_check m cells nb : stores m cells -> typed m cells -> has_nodes m nb ->
  (checkConsistency m = Ok tt <-> -1 <= um_dim m /\ forall c, c ∈ cells -> valid_cell (um_dim m) nb c) /\ (checkConsistency m = Ok tt \/ checkConsistency m = Throw).
Proof. exact (check_ok m cells nb). Qed.
Print Assumptions C63_check.

(** checkGeomConsistency accepts those without a repeated node, a separator of faces counting as a node. *)
Theorem C63_geom m cells nb : stores m cells -> typed m cells -> has_nodes m nb ->
  (checkGeomConsistency m = Ok tt <-> (-1 <= um_dim m /\ forall c, c ∈ cells -> valid_cell (um_dim m) nb c) /\ forall c, c ∈ cells -> NoDup c.2) /\ (checkGeomConsistency m = Ok tt \/ checkGeomConsistency m = Throw).
Proof. exact (geom_ok m cells nb). Qed.
Print Assumptions C63_geom.

(** A tetrahedron given as a polyhedron is valid, and none of its faces has a node twice: checkGeomConsistency rejects it. *)
Definition tetra_poly : umesh := UM 3 (Some (DA true 3 (replicate 12 0%Q))) (Some [31; 0; 1; 2; -1; 0; 3; 1; -1; 1; 3; 2; -1; 2; 3; 0]) (Some [0; 16]) [31].
Theorem C63_geom_refuted : ~ forall m cells nb, stores m cells -> typed m cells -> has_nodes m nb -> checkConsistency m = Ok tt ->
  (forall c, c ∈ cells -> exists faces, c.2 = polyhedron faces /\ forall f, f ∈ faces -> NoDup f) -> checkGeomConsistency m = Ok tt.
Proof.
  intros H. specialize (H tetra_poly [(31, polyhedron [[0; 1; 2]; [0; 3; 1]; [1; 3; 2]; [2; 3; 0]])] 4). cut (checkGeomConsistency tetra_poly = Ok tt); [vm_compute; discriminate|]. apply H.
  - eexists _, _. split; [reflexivity|]. split; [reflexivity|]. split; [reflexivity|]. exact (psums_ok [16]).
  - split; [split; [intros y Hy; inversion Hy|exact I]|]. intros t. split.
    + intros Ht%elem_of_list_singleton. eexists. split; [left|done].
    + intros (c & Hc%elem_of_list_singleton & E). subst. left.
  - eexists. split; [reflexivity|]. split; [reflexivity|]. split; [|reflexivity]. split; [vm_compute; discriminate|]. exists 4. split; [vm_compute; discriminate|reflexivity].
  - reflexivity.
  - intros c ->%elem_of_list_singleton. eexists. split; [reflexivity|]. intros f Hf. repeat (apply elem_of_cons in Hf as [->|Hf]; [apply (bool_decide_unpack _); vm_compute; exact I|]). inversion Hf.
Qed.
Print Assumptions C63_geom_refuted.

(** An empty index passes checkConsistency, with -1 cells. *)
Theorem C63_count_refuted : ~ forall m n, checkConsistency m = Ok tt -> getNumberOfCells m = Ok n -> 0 <= n.
Proof. intros H. specialize (H (UM 2 (Some (DA true 2 [])) (Some []) (Some []) []) (-1) eq_refl eq_refl). apply H. reflexivity. Qed.
Print Assumptions C63_count_refuted.

(** checkConsistency trusts the index: on one that leads out of the connectivity it reads out of bounds instead of throwing. *)
Theorem C63_index_refuted : ~ forall m conn connI, um_conn m = Some conn -> um_connI m = Some connI -> checkConsistency m <> UB.
Proof. intros H. apply (H (UM 2 (Some (DA true 2 [0%Q; 0%Q])) (Some [5; 0]) (Some [0; 3]) [5]) [5; 0] [0; 3]); reflexivity. Qed.
Print Assumptions C63_index_refuted.

(** A mesh of a triangle and a quadrangle. *)
Example C63_ex : exists m', (let* m := allocateCells (UM 2 (Some (DA true 2 (replicate 10 0%Q))) None None [1]) 2 in
    foldM (fun m (c : cell) => insertNextCell m c.1 (zlen c.2) c.2) [(3, [0; 1; 2]); (4, [1; 3; 4; 2])] m) = Ok m' /\
  um_conn m' = Some [3; 0; 1; 2; 4; 1; 3; 4; 2] /\ um_connI m' = Some [0; 4; 9] /\ um_types m' = [3; 4] /\
  stores m' [(3, [0; 1; 2]); (4, [1; 3; 4; 2])] /\ has_nodes m' 5 /\ checkConsistency m' = Ok tt /\ checkGeomConsistency m' = Ok tt /\
  insertNextCell m' 4 3 [0; 1; 2] = Throw /\ insertNextCell m' 14 4 [0; 1; 2; 3] = Throw.
Proof.
  eexists. split; [vm_compute; reflexivity|]. split; [reflexivity|]. split; [reflexivity|]. split; [reflexivity|]. split.
  - eexists _, _. split; [reflexivity|]. split; [reflexivity|]. split; [reflexivity|]. exact (psums_ok [4; 5]).
  - split; [eexists; split; [reflexivity|]; split; [reflexivity|]; split; [|reflexivity]|].
    + split; [vm_compute; discriminate|]. exists 5. split; [vm_compute; discriminate|reflexivity].
    + split; [vm_compute; reflexivity|]. split; [vm_compute; reflexivity|]. split; vm_compute; reflexivity.
Qed.
