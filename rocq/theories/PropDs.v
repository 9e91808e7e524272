(** C68: faces and edges of the cells (descending connectivity).  C69: neighbours and boundary. *)
From Coq Require Import QArith.
From Verif Require Import Base DataArray IndexSpec RenumSpec PartSpec CellTable CellModel CellSpec UmModel UmSpec UcSpec UmProofs10 UcProofs6 DsModel DsSpec DsProofs4 DsProofs5 DsProofs6 DsProofs7.
Local Open Scope Z_scope.

(** The cells of a mesh of dimension 1 to 3 have sons that can be put in a mesh. *)
Theorem C68_sons dim nb cells : 1 <= dim <= 3 -> Forall (proper dim nb) cells ->
  exists fss, Forall2 (sons MinusOneSonsGenerator) cells fss /\ forall f, f ∈ concat fss -> good_son (dim - 1) nb f.
Proof. exact (all_sons dim nb cells). Qed.
Print Assumptions C68_sons.
Example C68_sons_plane : Forall (proper 2 6) plane. Proof. exact plane_proper. Qed.
Example C68_sons_tetras : Forall (proper 3 5) tetras. Proof. exact tetras_proper. Qed.

(** What the sons are: the nodes in dimension 1, the edges of the ring of nodes in dimension 2, faces that make a closed surface in dimension 3. *)
Theorem C68_sons_1D nb c fs : proper 1 nb c -> sons MinusOneSonsGenerator c fs -> fs = (fun n => (NORM_POINT1, [n])) <$> c.2.
Proof. exact (sons1D_ok nb c fs). Qed.
Print Assumptions C68_sons_1D.
Theorem C68_sons_2D nb c k fs : proper 2 nb c -> GetCellModel c.1 = Ok k -> sons MinusOneSonsGenerator c fs -> fs = (fun e => (if cm_quad k then NORM_SEG3 else NORM_SEG2, edge_nodes e)) <$> edges2D (cm_quad k) c.2.
Proof. exact (sons2D_ok nb c k fs). Qed.
Print Assumptions C68_sons_2D.
Theorem C68_sons_3D nb c k fs : proper 3 nb c -> GetCellModel c.1 = Ok k -> cm_dyn k = false -> sons MinusOneSonsGenerator c fs -> exists es, are_faces fs es /\ closed_surface es.
Proof. exact (sons3D_ok nb c k fs). Qed.
Print Assumptions C68_sons_3D.
Theorem C68_sons_polyhedron faces fs : faces <> [] -> (forall f, f ∈ faces -> -1 ∉ f) -> sons MinusOneSonsGenerator (NORM_POLYHED, polyhedron faces) fs -> fs = (fun f => (NORM_POLYGON, f)) <$> faces.
Proof. exact (sons_polyhedron faces fs). Qed.
Print Assumptions C68_sons_polyhedron.

(** The mesh of the different sons, the sons of each cell, the cells of each son. *)
Theorem C68_descending m cells fss nb : stores m cells -> has_nodes m nb -> Forall2 (sons MinusOneSonsGenerator) cells fss -> 1 <= um_dim m <= 3 ->
  (forall f, f ∈ concat fss -> good_son (um_dim m - 1) nb f) ->
  exists m' new dss desc descI revDesc revDescI, buildDescendingConnectivity m = Ok (m', desc, descI, revDesc, revDescI) /\
    stores m' new /\ typed m' new /\ um_dim m' = um_dim m - 1 /\ um_coords m' = um_coords m /\
    descends fss new dss /\ skyline dss desc descI /\ skyline (owners 0 dss <$> seqZ 0 (zlen new)) revDesc revDescI.
Proof. intros H1 H2 H3 H4 H5. exact (fast_ok MinusOneSonsGenerator m cells fss nb H1 H2 H3 ltac:(lia) ltac:(cbn; lia) H5). Qed.
Print Assumptions C68_descending.
Example C68_descending_plane : stores (mk 2 6 plane) plane /\ has_nodes (mk 2 6 plane) 6 /\ Forall2 (sons MinusOneSonsGenerator) plane plane_edges /\
  exists m', buildDescendingConnectivity (mk 2 6 plane) = Ok (m', [0; 1; 2; 3; 4; 5; 1; 6; 7; 4], [0; 3; 7; 10], [0; 0; 1; 0; 1; 1; 2; 1; 2; 2], [0; 1; 3; 4; 5; 7; 8; 9; 10]).
Proof. destruct (mk_ok 2 6 plane ltac:(lia)) as (H1 & _ & H2). split; [done|]. split; [done|]. split; [exact plane_sons|]. eexists. vm_compute. reflexivity. Qed.

(** The cells of a son, one by one: those with a son on the same nodes. *)
Theorem C68_reverse fss new dss t f j : descends fss new dss -> new @ t = Some f -> j ∈ owners 0 dss t <-> exists fs f', fss @ j = Some fs /\ f' ∈ fs /\ same_nodes f.2 f'.2.
Proof. intros H. exact (D_owner fss new dss H t f j). Qed.
Print Assumptions C68_reverse.
Example C68_reverse_plane : forall t f j, exists new dss, descends plane_edges new dss /\ (new @ t = Some f -> j ∈ owners 0 dss t <-> exists fs f', plane_edges @ j = Some fs /\ f' ∈ fs /\ same_nodes f.2 f'.2).
Proof.
  intros t f j. destruct (mk_ok 2 6 plane ltac:(lia)) as (H1 & _ & H2). destruct (all_sons 2 6 plane ltac:(lia) plane_proper) as (fss & Hs & Hg).
  assert (fss = plane_edges) as ->. { clear -Hs. assert (G : forall c fs fs', sons MinusOneSonsGenerator c fs -> sons MinusOneSonsGenerator c fs' -> fs = fs'). { intros c fs fs' (k & Hk & Hn & Hf) (k' & Hk' & Hn' & Hf'). assert (k' = k) as -> by congruence. rewrite Hn in Hn'. injection Hn' as Hl. apply zlook_ext_lt; [done|]. intros i Hi. destruct (zlook_lt fs i Hi) as [x Hx]. destruct (zlook_lt fs' i ltac:(lia)) as [y Hy]. rewrite Hx, Hy. destruct (Hf i x Hx) as [E _]. destruct (Hf' i y Hy) as [E' _]. rewrite E in E'. by injection E' as <-. }
    pose proof plane_sons as Hp. revert Hs Hp. generalize plane plane_edges. intros l ls H. revert ls. induction H as [|c fs l' fss' Hc _ IH]; intros ls Hp; inversion Hp; subst; [done|]. f_equal; [by eapply G|by apply IH]. }
  destruct (C68_descending (mk 2 6 plane) plane plane_edges 6 H1 H2 plane_sons ltac:(cbn; lia) Hg) as (m' & new & dss & _ & _ & _ & _ & _ & _ & _ & _ & _ & HD & _). exists new, dss. split; [done|]. exact (C68_reverse _ _ _ t f j HD).
Qed.

(** The same with signs: a son that a cell sees as the first one that has it gets a positive number, and the others a negative one. *)
Theorem C68_oriented m cells fss nb : stores m cells -> has_nodes m nb -> Forall2 (sons MinusOneSonsGenerator) cells fss -> 2 <= um_dim m <= 3 ->
  (forall f, f ∈ concat fss -> good_son (um_dim m - 1) nb f) -> coherent (concat fss) -> (forall f k, f ∈ concat fss -> GetCellModel f.1 = Ok k -> cm_quad k = false) ->
  exists m' new ess desc descI revDesc revDescI, buildDescendingConnectivity2 m = Ok (m', desc, descI, revDesc, revDescI) /\
    stores m' new /\ typed m' new /\ um_dim m' = um_dim m - 1 /\ um_coords m' = um_coords m /\
    descends fss new (ranks ess) /\ Forall2 (Forall2 (oriented (um_dim m - 1) new)) fss ess /\ skyline ess desc descI /\ skyline (owners 0 (ranks ess) <$> seqZ 0 (zlen new)) revDesc revDescI.
Proof. intros H1 H2 H3 H4 H5. exact (oriented_ok MinusOneSonsGenerator m cells fss nb H1 H2 H3 ltac:(lia) ltac:(cbn; lia) H5). Qed.
Print Assumptions C68_oriented.
Example C68_oriented_plane : coherent (concat plane_edges) /\ exists m', buildDescendingConnectivity2 (mk 2 6 plane) = Ok (m', [1; 2; 3; 4; 5; 6; -2; 7; 8; -5], [0; 3; 7; 10], [0; 0; 1; 0; 1; 1; 2; 1; 2; 2], [0; 1; 3; 4; 5; 7; 8; 9; 10]).
Proof. split; [exact plane_coherent|]. eexists. vm_compute. reflexivity. Qed.

(** The sons with three nodes at most are always coherent. *)
Theorem C68_coherent fs : (forall f : cell, f ∈ fs -> zlen f.2 <= 3 /\ NoDup f.2) -> coherent fs.
Proof. exact (small_coherent fs). Qed.
Print Assumptions C68_coherent.

(** The edges of the cells of dimension 3. *)
Theorem C68_edges m cells fss nb : stores m cells -> has_nodes m nb -> Forall2 (sons MinusTwoSonsGenerator) cells fss -> um_dim m = 3 -> (forall f, f ∈ concat fss -> good_son 1 nb f) ->
  exists m' new dss desc descI revDesc revDescI, explode3DMeshTo1D m = Ok (m', desc, descI, revDesc, revDescI) /\
    stores m' new /\ typed m' new /\ um_dim m' = 1 /\ um_coords m' = um_coords m /\
    descends fss new dss /\ skyline dss desc descI /\ skyline (owners 0 dss <$> seqZ 0 (zlen new)) revDesc revDescI.
Proof. exact (explode31_ok m cells fss nb). Qed.
Print Assumptions C68_edges.
Theorem C68_edges_sons nb cells : Forall (proper 3 nb) cells -> (forall c : cell, c ∈ cells -> c.1 <> NORM_HEXA27) ->
  exists fss, Forall2 (sons MinusTwoSonsGenerator) cells fss /\ forall f, f ∈ concat fss -> good_son 1 nb f.
Proof. exact (all_edges nb cells). Qed.
Print Assumptions C68_edges_sons.
(** What they are: the edges of the faces, each once. *)
Theorem C68_edges_cell nb c k gs es fs : proper 3 nb c -> GetCellModel c.1 = Ok k -> cm_dyn k = false -> c.1 <> NORM_HEXA27 -> sons MinusOneSonsGenerator c gs -> are_faces gs es -> sons MinusTwoSonsGenerator c fs ->
  exists l, fs = (fun e => (if cm_quad k then NORM_SEG3 else NORM_SEG2, edge_nodes e)) <$> l /\ NoDup l /\ (forall e, e ∈ l -> opp e ∉ l) /\ (forall e, e ∈ concat es <-> e ∈ l \/ opp e ∈ l).
Proof. exact (edges_static nb c k gs es fs). Qed.
Print Assumptions C68_edges_cell.
Theorem C68_edges_polyhedron faces fs : faces <> [] -> (forall f, f ∈ faces -> -1 ∉ f) -> sons MinusTwoSonsGenerator (NORM_POLYHED, polyhedron faces) fs ->
  exists es, fs = (fun p : Z * Z => (NORM_SEG2, [p.1; p.2])) <$> es /\ distinct_pairs es /\ forall p, (exists q, q ∈ es /\ same_pair p q) <-> exists f e, f ∈ faces /\ e ∈ ring f /\ same_pair p e.1.
Proof. exact (edges_polyhedron faces fs). Qed.
Print Assumptions C68_edges_polyhedron.
Example C68_edges_tetras : Forall (proper 3 5) tetras /\ exists m', explode3DMeshTo1D (mk 3 5 tetras) = Ok (m', [0; 1; 2; 3; 4; 5; 4; 5; 1; 6; 7; 8], [0; 6; 12], [0; 0; 1; 0; 0; 0; 1; 0; 1; 1; 1; 1], [0; 1; 3; 4; 5; 7; 9; 10; 11; 12]).
Proof. split; [exact tetras_proper|]. eexists. vm_compute. reflexivity. Qed.

(** The micro edges of the cells of dimension 2. *)
Theorem C68_micro m cells fss nb : stores m cells -> has_nodes m nb -> Forall2 (sons MicroEdgesGenerator2D) cells fss -> um_dim m = 2 -> (forall f, f ∈ concat fss -> good_son 1 nb f) ->
  exists m' new dss desc descI revDesc revDescI, explodeMeshIntoMicroEdges m = Ok (m', desc, descI, revDesc, revDescI) /\
    stores m' new /\ typed m' new /\ um_dim m' = 1 /\ um_coords m' = um_coords m /\
    descends fss new dss /\ skyline dss desc descI /\ skyline (owners 0 dss <$> seqZ 0 (zlen new)) revDesc revDescI.
Proof. exact (micro2_ok m cells fss nb). Qed.
Print Assumptions C68_micro.
Theorem C68_micro_sons nb cells : Forall (proper 2 nb) cells -> (forall c : cell, c ∈ cells -> c.1 <> NORM_POLYGON /\ c.1 <> NORM_QPOLYG) ->
  exists fss, Forall2 (sons MicroEdgesGenerator2D) cells fss /\ forall f, f ∈ concat fss -> good_son 1 nb f.
Proof. exact (all_micro nb cells). Qed.
Print Assumptions C68_micro_sons.
Theorem C68_micro_cell nb c k gs fs : proper 2 nb c -> GetCellModel c.1 = Ok k -> cm_dyn k = false -> sons MinusOneSonsGenerator c gs -> sons MicroEdgesGenerator2D c fs ->
  fs = if cm_quad k then concat (halves <$> gs) else gs.
Proof. exact (micro_static nb c k gs fs). Qed.
Print Assumptions C68_micro_cell.
Example C68_micro_shell : Forall (proper 2 4) shell /\ exists m' d e r, explodeMeshIntoMicroEdges (mk 2 4 shell) = Ok (m', [0; 1; 2; 3; 4; 0; 4; 5; 1; 5; 3; 2], d, e, r).
Proof. split; [exact shell_proper|]. do 4 eexists. vm_compute. reflexivity. Qed.

(** What the code does not do: micro edges in dimension 3, signs in dimension 1, sons in dimension 0. *)
Theorem C68_micro3D_refuted : exists m, stores m tetras /\ has_nodes m 5 /\ um_dim m = 3 /\ Forall (proper 3 5) tetras /\ explodeMeshIntoMicroEdges m = Throw.
Proof. exact micro3_refuted. Qed.
Print Assumptions C68_micro3D_refuted.
Theorem C68_oriented1D_refuted : exists m, stores m line /\ has_nodes m 3 /\ um_dim m = 1 /\ Forall (proper 1 3) line /\ buildDescendingConnectivity2 m = Throw.
Proof. exact oriented1_refuted. Qed.
Print Assumptions C68_oriented1D_refuted.
Theorem C68_dimension0_refuted : exists m, stores m [(NORM_POINT1, [0])] /\ has_nodes m 1 /\ um_dim m = 0 /\ buildDescendingConnectivity m = Throw.
Proof. exact dim0_refuted. Qed.
Print Assumptions C68_dimension0_refuted.

(** * Neighbours *)
(** The neighbours of a cell: son by son, the other cells with that son. *)
Theorem C69_neighbours m cells fss nb : stores m cells -> has_nodes m nb -> Forall2 (sons MinusOneSonsGenerator) cells fss -> 1 <= um_dim m <= 3 ->
  (forall f, f ∈ concat fss -> good_son (um_dim m - 1) nb f) ->
  exists nss out outI, computeNeighborsOfCells m = Ok (out, outI) /\ skyline nss out outI /\ zlen nss = zlen cells /\
    forall i fs ns, fss @ i = Some fs -> nss @ i = Some ns -> exists ls, ns = concat ls /\ Forall2 (across fss i) fs ls.
Proof. exact (cells_neighbours_ok m cells fss nb). Qed.
Print Assumptions C69_neighbours.
Example C69_neighbours_plane : computeNeighborsOfCells (mk 2 6 plane) = Ok ([1; 2; 0; 1], [0; 1; 3; 4]). Proof. vm_compute. reflexivity. Qed.
(** The same from any pair of arrays of the descending kind. *)
Theorem C69_neighbours_arrays dss revs desc descI revDesc revDescI : skyline dss desc descI -> skyline revs revDesc revDescI -> (forall t, t ∈ concat dss -> 0 <= t < zlen revs) ->
  exists nss out outI, ComputeNeighborsOfCellsAdv desc descI revDesc revDescI = Ok (out, outI) /\ skyline nss out outI /\ zlen nss = zlen dss /\
    forall i ds ns, dss @ i = Some ds -> nss @ i = Some ns -> exists ls, ns = concat ls /\
      Forall2 (fun t l => ascending l /\ forall j, j ∈ l <-> j <> i /\ exists rv, revs @ t = Some rv /\ j ∈ rv) ds ls.
Proof. exact (adv_spec dss revs desc descI revDesc revDescI). Qed.
Print Assumptions C69_neighbours_arrays.
Example C69_neighbours_arrays_ex : ComputeNeighborsOfCellsAdv [0; 1; 1; 2] [0; 2; 4] [0; 1; 0; 1; 1] [0; 1; 3; 5] = Ok ([1; 0], [0; 1; 2]). Proof. vm_compute. reflexivity. Qed.
(** Identifiers known by node, brought to the cells that have the nodes. *)
Theorem C69_from_nodes m cells nb nss nn nnI : stores m cells -> typed m cells -> has_nodes m nb -> -1 <= um_dim m -> Forall (insertable (um_dim m)) cells -> (forall (c : cell) n, c ∈ cells -> n ∈ c.2 -> n < nb) ->
  skyline nss nn nnI -> zlen nss = nb ->
  exists rss out outI, computeCellNeighborhoodFromNodesOne m (vec nn) (vec nnI) = Ok (out, outI) /\ skyline rss out outI /\ zlen rss = zlen cells /\
    forall i c rs, cells @ i = Some c -> rss @ i = Some rs -> ascending rs /\ forall j, j ∈ rs <-> j <> i /\ exists n ns, n ∈ c.2 /\ nss @ n = Some ns /\ j ∈ ns.
Proof. exact (around_spec m cells nb nss nn nnI). Qed.
Print Assumptions C69_from_nodes.
Example C69_from_nodes_ex : computeCellNeighborhoodFromNodesOne (mk 2 6 plane) (vec [0; 0; 1; 0; 1; 1; 2; 1; 2; 2]) (vec [0; 1; 3; 5; 7; 9; 10]) = Ok ([1; 0; 2; 1], [0; 1; 3; 4]). Proof. vm_compute. reflexivity. Qed.

(** * Boundary *)
(** The skin: the sons of one cell only, in the order of the cells. *)
Theorem C69_skin m cells fss nb : stores m cells -> has_nodes m nb -> Forall2 (sons MinusOneSonsGenerator) cells fss -> 1 <= um_dim m <= 3 ->
  (forall f, f ∈ concat fss -> good_son (um_dim m - 1) nb f) ->
  exists m' sk, computeSkin m = Ok m' /\ stores m' sk /\ typed m' sk /\ um_dim m' = um_dim m - 1 /\ um_coords m' = um_coords m /\ skin_of (concat fss) sk.
Proof. exact (computeSkin_ok m cells fss nb). Qed.
Print Assumptions C69_skin.
Example C69_skin_plane : exists m', computeSkin (mk 2 6 plane) = Ok m' /\ um_conn m' = Some [1; 0; 1; 1; 2; 0; 1; 1; 3; 1; 4; 2; 1; 3; 5; 1; 5; 4] /\ um_connI m' = Some [0; 3; 6; 9; 12; 15; 18].
Proof. eexists. split; [vm_compute; reflexivity|]. split; reflexivity. Qed.
Theorem C69_boundary m cells fss nb : stores m cells -> has_nodes m nb -> Forall2 (sons MinusOneSonsGenerator) cells fss -> 1 <= um_dim m <= 3 ->
  (forall f, f ∈ concat fss -> good_son (um_dim m - 1) nb f) -> (exists i, alone (concat fss) i) ->
  exists m' sk, buildBoundaryMesh m = Ok m' /\ stores m' sk /\ typed m' sk /\ um_dim m' = um_dim m - 1 /\ um_coords m' = um_coords m /\ skin_of (concat fss) sk.
Proof. exact (boundary_ok m cells fss nb). Qed.
Print Assumptions C69_boundary.
Theorem C69_boundary_closed_refuted : exists m, stores m shell /\ has_nodes m 4 /\ um_dim m = 2 /\ Forall (proper 2 4) shell /\ buildBoundaryMesh m = UB.
Proof. exact closed_boundary. Qed.
Print Assumptions C69_boundary_closed_refuted.
(** The nodes of the boundary, and the cells with a son on the boundary. *)
Theorem C69_boundary_nodes m cells fss nb : stores m cells -> has_nodes m nb -> Forall2 (sons MinusOneSonsGenerator) cells fss -> 1 <= um_dim m <= 3 ->
  (forall f, f ∈ concat fss -> good_son (um_dim m - 1) nb f) ->
  exists l, findBoundaryNodes m = Ok l /\ ascending l /\ forall n, n ∈ l <-> exists i f, alone (concat fss) i /\ concat fss @ i = Some f /\ n ∈ f.2.
Proof. exact (boundary_nodes_ok m cells fss nb). Qed.
Print Assumptions C69_boundary_nodes.
Theorem C69_boundary_cells m cells fss nb : stores m cells -> has_nodes m nb -> Forall2 (sons MinusOneSonsGenerator) cells fss -> 1 <= um_dim m <= 3 ->
  (forall f, f ∈ concat fss -> good_son (um_dim m - 1) nb f) ->
  exists l, findCellIdsOnBoundary m = Ok l /\ ascending l /\ forall j, j ∈ l <-> exists fs f i, fss @ j = Some fs /\ f ∈ fs /\ concat fss @ i = Some f /\ alone (concat fss) i.
Proof. exact (boundary_cells_ok m cells fss nb). Qed.
Print Assumptions C69_boundary_cells.
(** The middle of a quadratic segment is one of its sons, so it is on the boundary of the line. *)
Theorem C69_boundary_middle_refuted : exists m, stores m curve /\ has_nodes m 5 /\ um_dim m = 1 /\ Forall (proper 1 5) curve /\ findBoundaryNodes m = Ok [0; 2; 3; 4].
Proof. exact curve_refuted. Qed.
Print Assumptions C69_boundary_middle_refuted.
Example C69_boundary_ex : findBoundaryNodes (mk 2 6 plane) = Ok [0; 1; 2; 3; 4; 5] /\ findCellIdsOnBoundary (mk 2 6 plane) = Ok [0; 1; 2] /\ findCellIdsOnBoundary (mk 2 4 shell) = Ok [] /\ findBoundaryNodes (mk 2 4 shell) = Ok [].
Proof. vm_compute. done. Qed.
