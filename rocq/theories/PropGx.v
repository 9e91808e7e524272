(** C107: the connectivity of a mesh of one type, the types of a mesh and the nodes of a cell. *)
From Coq Require Import QArith.
From Verif Require Import Base DataArray IndexSpec CellTable CellModel UmModel UmSpec UcProofs6 SxExamples GxModel GxSpec GxProofs GxProofs2 GxExamples.
Local Open Scope Z_scope.

(** A mesh of one static type: the nodes of its cells one after the other. *)
Theorem C107_static m cells t k : stores m cells -> typed m cells -> cells <> [] -> (forall c, c ∈ cells -> c.1 = t /\ zlen c.2 = cm_nbpts k) -> GetCellModel t = Ok k -> cm_dyn k = false ->
  convertNodalConnectivityToStaticGeoTypeMesh m = Ok (concat (snd <$> cells)).
Proof. exact (static_ok m cells t k). Qed.
Print Assumptions C107_static.
Example C107_static_quads : (stores (mk 2 8 quads) quads /\ typed (mk 2 8 quads) quads) /\ (forall c, c ∈ quads -> c.1 = NORM_QUAD4 /\ zlen c.2 = 4) /\
  (exists k, GetCellModel NORM_QUAD4 = Ok k /\ cm_nbpts k = 4 /\ cm_dyn k = false) /\ convertNodalConnectivityToStaticGeoTypeMesh (mk 2 8 quads) = Ok [0; 1; 4; 3; 1; 2; 5; 4; 3; 4; 7; 6].
Proof. split; [destruct (mk_ok 2 8 quads ltac:(lia)) as (H1 & H2 & _); exact (conj H1 H2)|]. split; [exact quads_ok|]. split; [eexists; split; [reflexivity|]; split; reflexivity|]. vm_compute. reflexivity. Qed.
(** A mesh without cell, a dynamic type and a cell with another number of nodes are refused. *)
Theorem C107_static_bad m cells t k : stores m cells -> typed m cells -> (forall c, c ∈ cells -> c.1 = t) -> GetCellModel t = Ok k -> cells = [] \/ cm_dyn k = true \/ (exists c, c ∈ cells /\ zlen c.2 <> cm_nbpts k) ->
  convertNodalConnectivityToStaticGeoTypeMesh m = Throw.
Proof. exact (static_bad m cells t k). Qed.
Print Assumptions C107_static_bad.
Example C107_static_bad_ex : (stores (mk 2 8 polygons) polygons /\ typed (mk 2 8 polygons) polygons) /\ (exists k, GetCellModel NORM_POLYGON = Ok k /\ cm_dyn k = true).
Proof. split; [destruct (mk_ok 2 8 polygons ltac:(lia)) as (H1 & H2 & _); exact (conj H1 H2)|]. eexists; split; reflexivity. Qed.

(** A mesh of one type, with cells of any size: the nodes and their index. *)
Theorem C107_dynamic m cells t : stores m cells -> typed m cells -> cells <> [] -> (forall c, c ∈ cells -> c.1 = t /\ 1 <= zlen c.2) ->
  exists c ci, convertNodalConnectivityToDynamicGeoTypeMesh m = Ok (c, ci) /\ skyline (snd <$> cells) c ci.
Proof. exact (dyn_ok m cells t). Qed.
Print Assumptions C107_dynamic.
Example C107_dynamic_polygons : (forall c, c ∈ polygons -> c.1 = NORM_POLYGON /\ 1 <= zlen c.2) /\
  convertNodalConnectivityToDynamicGeoTypeMesh (mk 2 8 polygons) = Ok ([0; 1; 2; 1; 2; 5; 4; 3; 4; 7; 6; 5], [0; 3; 7; 12]).
Proof. split; [exact polygons_ok|]. vm_compute. reflexivity. Qed.
(** A cell without node is refused. *)
Theorem C107_dynamic_bad m cells t c : stores m cells -> typed m cells -> (forall c, c ∈ cells -> c.1 = t) -> c ∈ cells -> c.2 = [] -> convertNodalConnectivityToDynamicGeoTypeMesh m = Throw.
Proof. exact (dyn_bad m cells t c). Qed.
Print Assumptions C107_dynamic_bad.
Example C107_dynamic_bad_ex : convertNodalConnectivityToDynamicGeoTypeMesh (mk 2 8 [(NORM_POLYGON, [0; 1; 2]); (NORM_POLYGON, [])]) = Throw.
Proof. vm_compute. reflexivity. Qed.
(** Both refuse a mesh with two types. *)
Theorem C107_mixed m cells c d : stores m cells -> typed m cells -> c ∈ cells -> d ∈ cells -> c.1 <> d.1 -> convertNodalConnectivityToStaticGeoTypeMesh m = Throw /\ convertNodalConnectivityToDynamicGeoTypeMesh m = Throw.
Proof. exact (mixed_throw m cells c d). Qed.
Print Assumptions C107_mixed.
Example C107_mixed_ex : (NORM_TRI3, [0; 1; 2]) ∈ plate /\ (NORM_QUAD4, [1; 4; 5; 2]) ∈ plate /\ NORM_TRI3 <> NORM_QUAD4.
Proof. split; [left|]. split; [right; left|discriminate]. Qed.

(** getAllGeoTypesSorted gives the types in the order of the cells, one for each run of cells of the same type. *)
Theorem C107_sorted m cells : stores m cells -> exists r, getAllGeoTypesSorted m = Ok r /\ runs (fst <$> cells) r.
Proof. exact (sorted_ok m cells). Qed.
Print Assumptions C107_sorted.
Example C107_sorted_ex : getAllGeoTypesSorted (mk 2 8 (plate ++ quads ++ polygons ++ plate)) = Ok [NORM_TRI3; NORM_QUAD4; NORM_POLYGON; NORM_QUAD4; NORM_POLYGON; NORM_TRI3; NORM_QUAD4; NORM_POLYGON].
Proof. vm_compute. reflexivity. Qed.
(** getTypesOfPart gives the types of the cells with these ids, each once and in order. *)
Theorem C107_part m cells ids : um_coords m <> None -> stores m cells -> (forall i, i ∈ ids -> 0 <= i < zlen cells) ->
  exists ts, getTypesOfPart m ids = Ok ts /\ ascending ts /\ forall t, t ∈ ts <-> exists i c, i ∈ ids /\ cells @ i = Some c /\ c.1 = t.
Proof. exact (part_types m cells ids). Qed.
Print Assumptions C107_part.
Example C107_part_ex : um_coords (mk 2 8 plate) <> None /\ getTypesOfPart (mk 2 8 plate) [2; 0; 2] = Ok [NORM_TRI3; NORM_POLYGON].
Proof. split; [discriminate|]. vm_compute. reflexivity. Qed.
(** getNumberOfNodesInCell counts the nodes of a cell without the separators. *)
Theorem C107_nodes m cells i c : stores m cells -> cells @ i = Some c -> (c.1 <> NORM_POLYHED -> -1 ∉ c.2) -> getNumberOfNodesInCell m i = Ok (zlen (List.filter (fun v => negb (v =? -1)) c.2)).
Proof. exact (nodes_of_cell m cells i c). Qed.
Print Assumptions C107_nodes.
Example C107_nodes_ex : getNumberOfNodesInCell (mk 3 6 blocks) 0 = Ok 4 /\ getNumberOfNodesInCell (mk 3 6 blocks) 1 = Ok 6.
Proof. split; vm_compute; reflexivity. Qed.
