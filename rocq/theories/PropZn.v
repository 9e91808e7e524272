(** C72: zones of cells reached from neighbour to neighbour.  C73: neighbours of nodes. *)
From stdpp Require Import relations.
From Coq Require Import QArith.
From Verif Require Import Base DataArray IndexSpec RenumSpec PartSpec CellTable CellModel CellSpec UmModel UmSpec UcSpec UcProofs6 DsModel DsSpec DsProofs6 ZnModel ZnSpec ZnProofs3 ZnProofs4 ZnProofs5 ZnExamples.
Local Open Scope Z_scope.

(** * Zones *)
(** The cells reached from the seeds with the allowed number of links, in ascending order; the number of peels: one for each distance at which there is a cell, up to the limit. *)
Theorem C72_spread n arr arrI seeds depth : graph n arr arrI -> 0 <= n -> (forall s, s ∈ seeds -> 0 <= s < n) ->
  exists ids nb, ComputeSpreadZoneGraduallyFromSeed seeds (vec arr) (vec arrI) depth = Ok (ids, nb) /\ ascending ids /\
    (forall j, j ∈ ids <-> exists k, leads (link arr arrI) seeds k j /\ in_limit depth k) /\
    0 <= nb /\ (forall q : nat, Z.of_nat q < nb <-> (exists j, distance (link arr arrI) seeds q j) /\ (depth = -1 \/ Z.of_nat q < depth)).
Proof. exact (fromSeed_ok n arr arrI seeds depth). Qed.
Print Assumptions C72_spread.
Example C72_spread_ex : graph 5 ga gi /\ ComputeSpreadZoneGraduallyFromSeed [0] (vec ga) (vec gi) (-1) = Ok ([0; 1; 2], 3) /\ ComputeSpreadZoneGraduallyFromSeed [2; 3] (vec ga) (vec gi) 1 = Ok ([1; 2; 3; 4], 1).
Proof. split; [exact g_graph|]. vm_compute. done. Qed.

Theorem C72_spread_refused n arr arrI seeds depth : zlen arrI = n + 1 -> 0 < n -> (exists s, s ∈ seeds /\ ~ 0 <= s < n) -> ComputeSpreadZoneGraduallyFromSeed seeds (vec arr) (vec arrI) depth = Throw.
Proof. exact (fromSeed_throw n arr arrI seeds depth). Qed.
Print Assumptions C72_spread_refused.
Example C72_spread_refused_ex : zlen gi = 5 + 1 /\ exists s, s ∈ [0; 5] /\ ~ 0 <= s < 5.
Proof. split; [done|]. exists 5. split; [by right; left|lia]. Qed.

(** From the first cell without a limit: the result has all the cells exactly when all of them are reached. *)
Theorem C72_contiguous n arr arrI : graph n arr arrI -> 0 < n ->
  exists ids, ComputeSpreadZoneGradually (vec arr) (vec arrI) = Ok ids /\ ascending ids /\ (forall j, j ∈ ids <-> rtc (link arr arrI) 0 j) /\ (zlen ids = n <-> forall j, 0 <= j < n -> rtc (link arr arrI) 0 j).
Proof. exact (gradually_ok n arr arrI). Qed.
Print Assumptions C72_contiguous.
Example C72_contiguous_ex : graph 5 ga gi /\ ComputeSpreadZoneGradually (vec ga) (vec gi) = Ok [0; 1; 2].
Proof. split; [exact g_graph|]. vm_compute. done. Qed.

(** "A negative value in arrIn means that it is ignored": it is used as a rank. *)
Theorem C72_negative_ignored_refuted : exists arr arrI, zlen arrI = 3 /\ (forall i, 0 <= i < 2 -> exists p, pack arr arrI i p /\ forall j, j ∈ p -> j < 2) /\ ComputeSpreadZoneGradually (vec arr) (vec arrI) = UB.
Proof. exact negative_refuted. Qed.
Print Assumptions C72_negative_ignored_refuted.

(** The zones of any links, in order. *)
Theorem C72_partition n arr arrI : graph n arr arrI -> 0 <= n -> exists zs, PartitionBySpreadZone (vec arr) (vec arrI) = Ok zs /\ zones (link arr arrI) n zs.
Proof. exact (partition_ok n arr arrI). Qed.
Print Assumptions C72_partition.
Example C72_partition_ex : graph 5 ga gi /\ PartitionBySpreadZone (vec ga) (vec gi) = Ok [[0; 1; 2]; [3; 4]].
Proof. split; [exact g_graph|]. vm_compute. done. Qed.
(** With links that go both ways: each cell in one zone, two cells in the same one exactly when links lead from one to the other. *)
Theorem C72_partition_both_ways n arr arrI : graph n arr arrI -> 0 <= n -> (forall i j, link arr arrI i j -> link arr arrI j i) ->
  exists zs, PartitionBySpreadZone (vec arr) (vec arrI) = Ok zs /\ Permutation (concat zs) (seqZ 0 n) /\ forall z i, z ∈ zs -> i ∈ z -> ascending z /\ forall j, j ∈ z <-> rtc (link arr arrI) i j.
Proof. exact (partition_sym n arr arrI). Qed.
Print Assumptions C72_partition_both_ways.
Example C72_partition_both_ways_ex : graph 5 ga gi /\ forall i j, link ga gi i j -> link ga gi j i.
Proof. split; [exact g_graph|exact g_sym]. Qed.
Theorem C72_partition_refused (arr arrI : da Z) : da_alloc arr = false \/ da_alloc arrI = false \/ da_nc arr <> 1 \/ da_nc arrI <> 1 \/ da_nt arrI < 1 -> PartitionBySpreadZone arr arrI = Throw.
Proof. exact (partition_throw arr arrI). Qed.
Print Assumptions C72_partition_refused.
Example C72_partition_refused_ex : da_nt (vec (@nil Z)) < 1. Proof. vm_compute. done. Qed.

(** The zones of a mesh: each cell in one zone, two cells in the same one exactly when one goes from one to the other through common faces (edges in dimension 2, nodes in dimension 1). *)
Theorem C72_mesh m cells fss nb : stores m cells -> has_nodes m nb -> Forall2 (sons MinusOneSonsGenerator) cells fss -> 1 <= um_dim m <= 3 ->
  (forall f, f ∈ concat fss -> good_son (um_dim m - 1) nb f) ->
  exists zs, partitionBySpreadZone m = Ok zs /\ Permutation (concat zs) (seqZ 0 (zlen cells)) /\
    forall z i, z ∈ zs -> i ∈ z -> ascending z /\ forall j, j ∈ z <-> rtc (adjacent fss) i j.
Proof. exact (mesh_partition m cells fss nb). Qed.
Print Assumptions C72_mesh.
Theorem C72_mesh_order m cells fss nb : stores m cells -> has_nodes m nb -> Forall2 (sons MinusOneSonsGenerator) cells fss -> 1 <= um_dim m <= 3 ->
  (forall f, f ∈ concat fss -> good_son (um_dim m - 1) nb f) ->
  exists zs, partitionBySpreadZone m = Ok zs /\ zones (adjacent fss) (zlen cells) zs.
Proof. exact (mesh_zones_ok m cells fss nb). Qed.
Print Assumptions C72_mesh_order.
Example C72_mesh_ex : stores (mk 2 9 island) island /\ has_nodes (mk 2 9 island) 9 /\ (exists fss, Forall2 (sons MinusOneSonsGenerator) island fss /\ forall f, f ∈ concat fss -> good_son 1 9 f) /\
  partitionBySpreadZone (mk 2 9 island) = Ok [[0; 1; 2]; [3]].
Proof. destruct (mk_ok 2 9 island ltac:(lia)) as (H1 & _ & H2). split; [done|]. split; [done|]. split; [exact (all_sons 2 9 island ltac:(lia) island_proper)|]. vm_compute. reflexivity. Qed.

(** * Neighbours of nodes *)
(** Dimension 1, segments of two nodes: segment by segment, the other end. *)
Theorem C73_line m cells nb : stores m cells -> has_nodes m nb -> um_dim m = 1 -> (forall c, c ∈ cells -> zlen c.2 = 2 /\ forall n, n ∈ c.2 -> 0 <= n < nb) ->
  exists nss out outI, computeNeighborsOfNodes m = Ok (out, outI) /\ skyline nss out outI /\ zlen nss = nb /\
    forall i ns, nss @ i = Some ns -> Forall2 (fun e j => exists c, cells @ e = Some c /\ ends c i j) (cells_of_node 0 cells i) ns.
Proof. exact (nodes1D_ok m cells nb). Qed.
Print Assumptions C73_line.
Example C73_line_ex : stores (mk 1 3 line) line /\ has_nodes (mk 1 3 line) 3 /\ (forall c, c ∈ line -> zlen c.2 = 2 /\ forall n, n ∈ c.2 -> 0 <= n < 3) /\ computeNeighborsOfNodes (mk 1 3 line) = Ok ([1; 0; 2; 1], [0; 1; 3; 4]).
Proof.
  destruct (mk_ok 1 3 line ltac:(lia)) as (H1 & _ & H2). split; [done|]. split; [done|]. split; [|vm_compute; reflexivity]. intros c Hc. unfold line in Hc. rewrite !elem_of_cons, elem_of_nil in Hc.
  destruct Hc as [->|[->|[]]]; (split; [done|]); intros n Hn; cbn [snd] in Hn; rewrite !elem_of_cons, elem_of_nil in Hn; lia.
Qed.
(** Dimensions 2 and 3, edges of two nodes: each other end of an edge of a cell, once. *)
Theorem C73_surface m cells fss nb : stores m cells -> has_nodes m nb -> um_dim m = 2 -> Forall2 (sons MinusOneSonsGenerator) cells fss -> (forall f, f ∈ concat fss -> good_son 1 nb f /\ zlen f.2 = 2) ->
  exists nss out outI, computeNeighborsOfNodes m = Ok (out, outI) /\ skyline nss out outI /\ zlen nss = nb /\
    forall i ns, nss @ i = Some ns -> NoDup ns /\ forall j, j ∈ ns <-> exists f, f ∈ concat fss /\ ends f i j.
Proof. exact (nodes2D_ok m cells fss nb). Qed.
Print Assumptions C73_surface.
Example C73_surface_ex : (forall f, f ∈ concat plane_edges -> good_son 1 6 f /\ zlen f.2 = 2) /\ Forall2 (sons MinusOneSonsGenerator) plane plane_edges /\
  computeNeighborsOfNodes (mk 2 6 plane) = Ok ([1; 2; 0; 2; 3; 1; 0; 4; 1; 4; 5; 3; 2; 5; 3; 4], [0; 2; 5; 8; 11; 14; 16]).
Proof. split; [exact plane_linear|]. split; [exact plane_sons|]. vm_compute. reflexivity. Qed.
Theorem C73_volume m cells fss nb : stores m cells -> has_nodes m nb -> um_dim m = 3 -> Forall2 (sons MinusTwoSonsGenerator) cells fss -> (forall f, f ∈ concat fss -> good_son 1 nb f /\ zlen f.2 = 2) ->
  exists nss out outI, computeNeighborsOfNodes m = Ok (out, outI) /\ skyline nss out outI /\ zlen nss = nb /\
    forall i ns, nss @ i = Some ns -> NoDup ns /\ forall j, j ∈ ns <-> exists f, f ∈ concat fss /\ ends f i j.
Proof. exact (nodes3D_ok m cells fss nb). Qed.
Print Assumptions C73_volume.
Example C73_volume_ex : Forall2 (sons MinusTwoSonsGenerator) tetras tetra_edges /\ (forall f, f ∈ concat tetra_edges -> good_son 1 5 f /\ zlen f.2 = 2) /\ computeNeighborsOfNodes (mk 3 5 tetras) = Ok ([1; 2; 3; 0; 2; 3; 4; 1; 0; 3; 4; 0; 1; 2; 4; 1; 3; 2], [0; 3; 7; 11; 15; 18]).
Proof. split; [exact tetra_sons|]. split; [exact tetra_linear|]. vm_compute. reflexivity. Qed.
(** On quadratic meshes two nodes without a common edge can be given as neighbours. *)
Theorem C73_quadratic_refuted : exists m cells fss out outI i j, stores m cells /\ has_nodes m 6 /\ um_dim m = 2 /\ Forall (proper 2 6) cells /\ Forall2 (sons MinusOneSonsGenerator) cells fss /\
  computeNeighborsOfNodes m = Ok (out, outI) /\ link out outI i j /\ forall f, f ∈ concat fss -> i ∈ f.2 -> j ∉ f.2.
Proof. exact quadratic_refuted. Qed.
Print Assumptions C73_quadratic_refuted.
(** The wider neighbourhood: the other nodes of the cells of the node, in ascending order, in any mesh. *)
Theorem C73_enlarged m cells nb : stores m cells -> has_nodes m nb -> (forall c v, c ∈ cells -> v ∈ c.2 -> 0 <= v < nb \/ v = -1) ->
  exists nss out outI, computeEnlargedNeighborsOfNodes m = Ok (out, outI) /\ skyline nss out outI /\ zlen nss = nb /\
    forall i ns, nss @ i = Some ns -> ascending ns /\ forall j, j ∈ ns <-> j <> i /\ shared cells i j.
Proof. exact (enlarged_ok m cells nb). Qed.
Print Assumptions C73_enlarged.
Example C73_enlarged_ex : computeEnlargedNeighborsOfNodes (mk 2 6 plane) = Ok ([1; 2; 0; 2; 3; 4; 0; 1; 3; 4; 1; 2; 4; 5; 1; 2; 3; 5; 3; 4], [0; 2; 6; 10; 14; 18; 20]) /\ shared plane 1 4.
Proof. split; [vm_compute; reflexivity|]. split; [done|]. exists (NORM_QUAD4, [1; 3; 4; 2]). split; [by right; left|]. cbn [snd]. rewrite !elem_of_cons. tauto. Qed.
