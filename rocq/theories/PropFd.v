(** C77 to C80: the values of the fields, by cells, Gauss points, nodes of cells and nodes. *)
From Coq Require Import QArith Qabs.
From Verif Require Import Base DataArray IndexSpec RenumSpec SlicesSpec CellTable UmModel UmSpec UcProofs6 TyExamples GlModel GlSpec GlExamples FdModel FdSpec FdProofs FdProofs2 FdProofs3 FdProofs4 FdProofs5 FdProofs6 FdProofs7 FdExamples.
Local Open Scope Z_scope.

(** * C77: layout of the values *)

(** The number of tuples is the sum of the numbers of values of the cells. *)
Theorem C77_tuples d m cells ns : stores m cells -> sizes d cells ns -> getNumberOfTuples d m = Ok (zsum ns).
Proof. exact (tuples_ok d m cells ns). Qed.
Print Assumptions C77_tuples.
Example C77_tuples_mixed : sizes (GaussPt all_set) mixed_cells [1; 1; 3; 1; 1] /\ getNumberOfTuples (GaussPt all_set) mixed = Ok 7 /\ sizes GaussNE mixed_cells [3; 4; 3; 3; 4] /\ getNumberOfTuples GaussNE mixed = Ok 17.
Proof. split; [apply gauss_carries|]. split; [vm_compute; done|]. split; [apply ne_carries|]. vm_compute. done. Qed.
(** A cell without localization, with a type whose number of nodes is not fixed: refused. *)
Theorem C77_tuples_throw d m cells : stores m cells -> d <> P1 -> (forall g dpc, d = GaussPt g -> gd_dpc g = Some dpc -> zlen dpc = zlen cells) -> (forall ns, ~ sizes d cells ns) -> getNumberOfTuples d m = Throw.
Proof. exact (tuples_throw d m cells). Qed.
Print Assumptions C77_tuples_throw.
(** The array of the offsets. *)
Theorem C77_offsets d m cells ns : stores m cells -> sizes d cells ns -> exists r, getOffsetArr d m = Ok (Some <$> r) /\ prefix_sums ns r.
Proof. exact (offsets_plain d m cells ns). Qed.
Print Assumptions C77_offsets.
Example C77_offsets_mixed : getOffsetArr (GaussPt all_set) mixed = Ok (Some <$> [0; 1; 2; 5; 6; 7]).
Proof. vm_compute. done. Qed.
(** Component [j] of the value number [k] of cell [c]. *)
Theorem C77_getIJK {A} d m cells ns (a : da A) c n k j : stores m cells -> sizes d cells ns -> d <> P0 -> sized a (zsum ns) -> ns @ c = Some n -> 0 <= k < n -> 0 <= j < da_nc a ->
  exists v, getIJK d m a c k j = Ok v /\ value a ns c k j = Some v.
Proof. exact (getIJK_ok d m cells ns a c n k j). Qed.
Print Assumptions C77_getIJK.
Example C77_getIJK_mixed : getIJK (GaussPt all_set) mixed (DA true 1 [10; 20; 30; 31; 32; 40; 50]) 2 1 0 = Ok 31 /\ value (DA true 1 [10; 20; 30; 31; 32; 40; 50]) gauss_sizes 2 1 0 = Some 31.
Proof. vm_compute. done. Qed.
(** The check of an array is exact. *)
Theorem C77_coherency {A} d m cells co (a : da A) : stores m cells -> um_coords m = Some co ->
  checkCoherencyBetween d m a = Ok tt /\ suits d cells (da_nt co) (da_nt a) \/ checkCoherencyBetween d m a = Throw /\ ~ suits d cells (da_nt co) (da_nt a).
Proof. exact (check_ok d m cells co a). Qed.
Print Assumptions C77_coherency.
Example C77_coherency_mixed : checkCoherencyBetween (GaussPt all_set) mixed (DA true 1 [10; 20; 30; 31; 32; 40; 50]) = Ok tt /\ checkCoherencyBetween (GaussPt all_set) mixed (DA true 1 [10; 20; 30; 31; 32; 40]) = Throw /\
  checkCoherencyBetween P1 mixed (DA true 2 [1; 2; 3; 4; 5; 6; 7; 8; 9; 10; 11; 12]) = Ok tt.
Proof. vm_compute. done. Qed.
(** The number of tuples expected from a description by types, with profiles. *)
Theorem C77_expected d trs pfls : (forall g, d <> GaussPt g) ->
  (exists vs, getNumberOfTuplesExpectedRegardingCode d (code_of trs) pfls = Ok (zsum vs) /\ Forall2 (fun tr v => good_triple pfls tr /\ exists k, per_entity d tr.1.1 k /\ v = tr.1.2 * k) trs vs) \/
  (getNumberOfTuplesExpectedRegardingCode d (code_of trs) pfls = Throw /\ exists tr, tr ∈ trs /\ ~ (good_triple pfls tr /\ exists k, per_entity d tr.1.1 k)).
Proof. exact (expected_ok d trs pfls). Qed.
Print Assumptions C77_expected.
Theorem C77_expected_gauss g m cells ns trs pfls : stores m cells -> sizes (GaussPt g) cells ns ->
  (Forall (good_triple pfls) trs /\ zsum ((fun tr => tr.1.2) <$> trs) = zlen cells /\ getNumberOfTuplesExpectedRegardingCode (GaussPt g) (code_of trs) pfls = Ok (zsum ns)) \/
  (~ (Forall (good_triple pfls) trs /\ zsum ((fun tr => tr.1.2) <$> trs) = zlen cells) /\ getNumberOfTuplesExpectedRegardingCode (GaussPt g) (code_of trs) pfls = Throw).
Proof. exact (expected_gauss g m cells ns trs pfls). Qed.
Print Assumptions C77_expected_gauss.
Theorem C77_expected_shape d code pfls : zlen code mod 3 <> 0 -> getNumberOfTuplesExpectedRegardingCode d code pfls = Throw.
Proof. exact (code_shape d code pfls). Qed.
Print Assumptions C77_expected_shape.
Example C77_expected_mixed : getNumberOfTuplesExpectedRegardingCode GaussNE [NORM_TRI3; 2; 0; NORM_QUAD4; 2; -1] [Some (vec [0; 2])] = Ok 14 /\ getNumberOfTuplesExpectedRegardingCode (GaussPt all_set) [NORM_TRI3; 3; -1; NORM_QUAD4; 2; -1] [] = Ok 7 /\
  getNumberOfTuplesExpectedRegardingCode P0 [NORM_TRI3; 3; 0] [Some (vec [0; 2])] = Throw.
Proof. vm_compute. done. Qed.

(** * C78: renumbering of the cells of a field *)

(** Each cell keeps its nodes, its localization and its values. *)
Theorem C78_renumberCells {A} (f : field A) cells ns p : carries f cells ns -> is_perm (zlen cells) p -> (fd_disc f = P0 \/ cells <> []) ->
  exists f' cells' ns', fieldRenumberCells f p false = Ok f' /\ carries f' cells' ns' /\ typed (fd_mesh f') cells' /\ same_kind (fd_disc f) (fd_disc f') /\ zlen cells' = zlen cells /\
    um_dim (fd_mesh f') = um_dim (fd_mesh f) /\ um_coords (fd_mesh f') = um_coords (fd_mesh f) /\ forall i t, p @ i = Some t -> same_cell f cells ns i f' cells' ns' t.
Proof. exact (renum_field f cells ns p). Qed.
Print Assumptions C78_renumberCells.
Example C78_renumberCells_mixed : carries gauss_field mixed_cells gauss_sizes /\ carries ne_field mixed_cells ne_sizes /\ is_perm 5 [4; 0; 3; 1; 2] /\
  exists f', fieldRenumberCells gauss_field [4; 0; 3; 1; 2] false = Ok f' /\ fd_arrs f' = [Some (DA true 1 [20; 40; 50; 30; 31; 32; 10]); None] /\ fd_disc f' = GaussPt (GD (Some [2; 0; 2; 1; 0]) [tri1; tri3; quad1]).
Proof. split; [exact gauss_carries|]. split; [exact ne_carries|]. split; [exact perm5|]. eexists. split; [vm_compute; reflexivity|]. vm_compute. done. Qed.
(** With the check: distinct numbers are replaced by their ranks, the others are refused. *)
Theorem C78_check {A} (f : field A) cells ns l : carries f cells ns -> zlen l = zlen cells -> NoDup l -> exists p, ranks l p /\ fieldRenumberCells f l true = fieldRenumberCells f p false.
Proof. exact (check_field f cells ns l). Qed.
Print Assumptions C78_check.
Theorem C78_check_throw {A} (f : field A) cells ns l : carries f cells ns -> zlen l = zlen cells -> ~ NoDup l -> fieldRenumberCells f l true = Throw.
Proof. exact (check_throw f cells ns l). Qed.
Print Assumptions C78_check_throw.
Example C78_check_mixed : fieldRenumberCells gauss_field [40; 0; 30; 10; 20] true = fieldRenumberCells gauss_field [4; 0; 3; 1; 2] false /\ fieldRenumberCells gauss_field [4; 0; 3; 0; 2] true = Throw.
Proof. vm_compute. done. Qed.
(** Values on nodes do not move. *)
Theorem C78_nodes {A} (f : field A) cells p : fd_disc f = P1 -> stores (fd_mesh f) cells -> is_perm (zlen cells) p ->
  exists m' cells', fieldRenumberCells f p false = Ok (FD P1 m' (fd_arrs f)) /\ stores m' cells' /\ typed m' cells' /\ um_dim m' = um_dim (fd_mesh f) /\ um_coords m' = um_coords (fd_mesh f) /\ zlen cells' = zlen cells /\ forall i t, p @ i = Some t -> cells' @ t = cells @ i.
Proof. exact (renum_nodes f cells p). Qed.
Print Assumptions C78_nodes.
(** On a mesh without cells the values by Gauss points and by nodes of cells are written outside of the arrays. *)
Theorem C78_empty_refuted {A} (f : field A) l check : carries f [] [] -> fd_disc f <> P0 -> fieldRenumberCells f l check = UB.
Proof. exact (renum_empty f l check). Qed.
Print Assumptions C78_empty_refuted.
Example C78_empty_mesh : carries empty_field [] [] /\ fd_disc empty_field = GaussNE.
Proof. split; [exact empty_carries|done]. Qed.

(** * C79: part of a field *)

(** The cell number [q] of the part is the cell of number ids[q], with its nodes, its localization and its values. *)
Theorem C79_part {A} (f : field A) cells ns ids sel : carries f cells ns -> 0 <= um_dim (fd_mesh f) -> (fd_disc f = GaussNE -> forall c, c ∈ cells -> whole c) -> picked cells ids sel ->
  exists f' ns', buildSubPart f ids = Ok f' /\ carries f' sel ns' /\ typed (fd_mesh f') sel /\ same_kind (fd_disc f) (fd_disc f') /\ um_dim (fd_mesh f') = um_dim (fd_mesh f) /\ um_coords (fd_mesh f') = um_coords (fd_mesh f) /\
    forall q i, ids @ q = Some i -> same_cell f cells ns i f' sel ns' q.
Proof. exact (part_field f cells ns ids sel). Qed.
Print Assumptions C79_part.
Example C79_part_mixed : carries gauss_field mixed_cells gauss_sizes /\ carries ne_field mixed_cells ne_sizes /\ (forall c, c ∈ mixed_cells -> whole c) /\ picked mixed_cells [2; 0; 2] [(NORM_TRI3, [3; 5; 4]); (NORM_TRI3, [0; 1; 2]); (NORM_TRI3, [3; 5; 4])] /\
  exists f', buildSubPart gauss_field [2; 0; 2] = Ok f' /\ fd_arrs f' = [Some (DA true 1 [30; 31; 32; 10; 30; 31; 32]); None] /\ fd_disc f' = GaussPt (GD (Some [1; 0; 1]) [tri1; tri3; quad1]).
Proof. split; [exact gauss_carries|]. split; [exact ne_carries|]. split; [exact mixed_whole|]. split; [exact part_picked|]. eexists. split; [vm_compute; reflexivity|]. vm_compute. done. Qed.
(** A number that is not that of a cell: refused. *)
Theorem C79_part_throw {A} (f : field A) cells ns ids i : carries f cells ns -> 0 <= um_dim (fd_mesh f) -> (fd_disc f = GaussNE -> forall c, c ∈ cells -> whole c) -> i ∈ ids -> ~ 0 <= i < zlen cells -> buildSubPart f ids = Throw.
Proof. exact (part_bad f cells ns ids i). Qed.
Print Assumptions C79_part_throw.
(** Values on nodes: the nodes of the cells of the part, in the same order, with their coordinates and values. *)
Theorem C79_part_nodes {A} (f : field A) cells nb ids sel : on_nodes f cells nb -> 0 <= um_dim (fd_mesh f) -> picked cells ids sel -> exists f', buildSubPart f ids = Ok f' /\ node_part f sel f'.
Proof. exact (part_nodes f cells nb ids sel). Qed.
Print Assumptions C79_part_nodes.
Example C79_part_nodes_mixed : on_nodes node_field mixed_cells 6 /\ exists f', buildSubPart node_field [2; 2] = Ok f' /\ fd_arrs f' = [Some (DA true 1 [3; 4; 5]%Q)].
Proof. split; [exact node_carries|]. eexists. split; [vm_compute; reflexivity|]. vm_compute. done. Qed.
Theorem C79_part_nodes_throw {A} (f : field A) cells nb ids i : on_nodes f cells nb -> 0 <= um_dim (fd_mesh f) -> i ∈ ids -> ~ 0 <= i < zlen cells -> buildSubPart f ids = Throw.
Proof. exact (nodes_bad f cells nb ids i). Qed.
Print Assumptions C79_part_nodes_throw.
(** A range of cells: the same as the part of these cells, for one value by cell, for a step other than one, for a range up to the last cell. *)
Theorem C79_range_partial {A} (f : field A) cells ns b e s ids sel : carries f cells ns -> 0 <= um_dim (fd_mesh f) -> is_Some (um_coords (fd_mesh f)) -> (fd_disc f = GaussNE -> forall c, c ∈ cells -> whole c) ->
  valid_range b e s -> is_range_list b e s ids -> picked cells ids sel -> fd_disc f = P0 \/ s <> 1 \/ e = zlen cells ->
  exists f' ns', buildSubPartRange f b e s = Ok f' /\ carries f' sel ns' /\ same_kind (fd_disc f) (fd_disc f') /\ um_dim (fd_mesh f') = um_dim (fd_mesh f) /\ um_coords (fd_mesh f') = um_coords (fd_mesh f) /\
    forall q i, ids @ q = Some i -> same_cell f cells ns i f' sel ns' q.
Proof. exact (range_field f cells ns b e s ids sel). Qed.
Print Assumptions C79_range_partial.
Example C79_range_mixed : valid_range 2 5 2 /\ is_range_list 2 5 2 [2; 4] /\ picked mixed_cells [2; 4] [(NORM_TRI3, [3; 5; 4]); (NORM_QUAD4, [0; 1; 3; 5])] /\
  exists f', buildSubPartRange gauss_field 2 5 2 = Ok f' /\ fd_arrs f' = [Some (DA true 1 [30; 31; 32; 50]); None].
Proof. split; [apply tail_range|]. split; [apply tail_range|]. split; [exact tail_picked|]. eexists. split; [vm_compute; reflexivity|]. vm_compute. done. Qed.
(** Step one and an end before the last cell: values by Gauss points and by nodes of cells get the values of one more cell than the mesh has. *)
Theorem C79_range_refuted {A} (f : field A) cells ns b e n sel : carries f cells ns -> 0 <= um_dim (fd_mesh f) -> is_Some (um_coords (fd_mesh f)) -> fd_disc f <> P0 -> 0 <= b <= e -> ns @ e = Some n -> picked cells (seqZ b (e - b)) sel ->
  exists f' ns', buildSubPartRange f b e 1 = Ok f' /\ stores (fd_mesh f') sel /\ sizes (fd_disc f') sel ns' /\ Forall2 (fun a a' => match a, a' with None, None => True | Some _, Some a' => da_nt a' = zsum ns' + n | _, _ => False end) (fd_arrs f) (fd_arrs f').
Proof. exact (range_more f cells ns b e n sel). Qed.
Print Assumptions C79_range_refuted.
Example C79_range_too_many : picked mixed_cells (seqZ 0 2) [(NORM_TRI3, [0; 1; 2]); (NORM_QUAD4, [1; 3; 4; 2])] /\
  exists f', buildSubPartRange gauss_field 0 2 1 = Ok f' /\ fd_arrs f' = [Some (DA true 1 [10; 20; 30; 31; 32]); None] /\ getNumberOfTuples (fd_disc f') (fd_mesh f') = Ok 2.
Proof. split; [exact front_picked|]. eexists. split; [vm_compute; reflexivity|]. vm_compute. done. Qed.
Theorem C79_range_throw {A} (f : field A) cells ns b e s : carries f cells ns -> 0 <= um_dim (fd_mesh f) -> is_Some (um_coords (fd_mesh f)) -> (fd_disc f = GaussNE -> forall c, c ∈ cells -> whole c) ->
  (~ valid_range b e s \/ exists ids v, is_range_list b e s ids /\ v ∈ ids /\ ~ 0 <= v < zlen cells) -> buildSubPartRange f b e s = Throw.
Proof. exact (range_bad f cells ns b e s). Qed.
Print Assumptions C79_range_throw.
Theorem C79_range_nodes {A} (f : field A) cells nb b e s ids sel : on_nodes f cells nb -> 0 <= um_dim (fd_mesh f) -> valid_range b e s -> is_range_list b e s ids -> picked cells ids sel -> exists f', buildSubPartRange f b e s = Ok f' /\ node_part f sel f'.
Proof. exact (range_nodes f cells nb b e s ids sel). Qed.
Print Assumptions C79_range_nodes.
Theorem C79_range_nodes_throw {A} (f : field A) cells nb b e s : on_nodes f cells nb -> 0 <= um_dim (fd_mesh f) -> (~ valid_range b e s \/ exists ids v, is_range_list b e s ids /\ v ∈ ids /\ ~ 0 <= v < zlen cells) -> buildSubPartRange f b e s = Throw.
Proof. exact (nodes_range_bad f cells nb b e s). Qed.
Print Assumptions C79_range_nodes_throw.
Example C79_range_nodes_mixed : buildSubPartRange node_field 2 5 2 = buildSubPart node_field [2; 4] /\ exists f', buildSubPartRange node_field 0 1 1 = Ok f' /\ fd_arrs f' = [Some (DA true 1 [0; 1; 2]%Q)].
Proof. split; [vm_compute; done|]. eexists. split; [vm_compute; reflexivity|]. vm_compute. done. Qed.

(** * C80: renumbering of the values by nodes *)

(** Old numbers to new ones: a new entity gets the tuple of the first old one; those that follow must be close, up to [eps], else the call is refused. *)
Theorem C80_old_to_new big eps p newNb (a : da Q) nt : sized a nt -> zlen p = nt -> 0 <= newNb -> (forall v, v ∈ p -> v < newNb) -> unmarked big a ->
  (exists r, RenumberEntitiesFromO2NArr big eps p newNb a = Ok r /\ agree eps p a /\ da_nc r = da_nc a /\ sized r newNb /\ (forall n i j, 0 <= n -> first_pos p n i -> ij r n j = ij a i j) /\
     (forall n j, 0 <= n < newNb -> n ∉ p -> 0 <= j < da_nc a -> ij r n j = Some big)) \/
  (RenumberEntitiesFromO2NArr big eps p newNb a = Throw /\ ~ agree eps p a).
Proof. exact (entities_ok big eps p newNb a nt). Qed.
Print Assumptions C80_old_to_new.
Example C80_old_to_new_merge : RenumberEntitiesFromO2NArr 1000 (1 # 10) [1; -1; 0; 1] 3 (DA true 2 [1; 2; 3; 4; 5; 6; 21 # 20; 2]%Q) = Ok (DA true 2 [5; 6; 1; 2; 1000; 1000]%Q) /\
  RenumberEntitiesFromO2NArr 1000 (1 # 100) [1; -1; 0; 1] 3 (DA true 2 [1; 2; 3; 4; 5; 6; 21 # 20; 2]%Q) = Throw.
Proof. vm_compute. done. Qed.
(** New numbers to old ones. *)
Theorem C80_new_to_old p (a : da Q) nt : sized a nt -> (forall v, v ∈ p -> 0 <= v < nt) ->
  exists r, RenumberEntitiesFromN2OArr p a = Ok r /\ da_nc r = da_nc a /\ sized r (zlen p) /\ forall i v j, p @ i = Some v -> ij r i j = ij a v j.
Proof. exact (n2o_ok p a nt). Qed.
Print Assumptions C80_new_to_old.
Example C80_new_to_old_some : RenumberEntitiesFromN2OArr [2; 0; 2] (DA true 2 [1; 2; 3; 4; 5; 6]%Q) = Ok (DA true 2 [5; 6; 1; 2; 5; 6]%Q).
Proof. vm_compute. done. Qed.
(** The nodes of a field on nodes: the cells name the new nodes, the values are those of the first old node, the coordinates those of the last one; values of merged nodes that differ are refused. *)
Theorem C80_renumberNodes big eps (f : field Q) cells nb p newNb : on_nodes f cells nb -> typed (fd_mesh f) cells -> zlen p = nb -> 0 < newNb -> (forall v, v ∈ p -> v < newNb) -> (forall t, 0 <= t < newNb -> t ∈ p) -> (forall a, Some a ∈ fd_arrs f -> unmarked big a) ->
  (exists f', fieldRenumberNodes big eps f p = Ok f' /\ (forall a, Some a ∈ fd_arrs f -> agree eps p a) /\ on_nodes f' (rename (ren p) <$> cells) newNb /\ typed (fd_mesh f') (rename (ren p) <$> cells) /\ um_dim (fd_mesh f') = um_dim (fd_mesh f) /\
     (forall t i q, 0 <= t -> last_pos p t i -> point (fd_mesh f) i q -> point (fd_mesh f') t q) /\ (forall t i, 0 <= t -> first_pos p t i -> same_values f i f' t)) \/
  (fieldRenumberNodes big eps f p = Throw /\ exists a, Some a ∈ fd_arrs f /\ ~ agree eps p a).
Proof. exact (renumber_nodes big eps f cells nb p newNb). Qed.
Print Assumptions C80_renumberNodes.
Example C80_renumberNodes_mixed : on_nodes node_field mixed_cells 6 /\ typed (fd_mesh node_field) mixed_cells /\ (forall v, v ∈ [0; 1; 2; 0; -1; 1] -> v < 3) /\ (forall t, 0 <= t < 3 -> t ∈ [0; 1; 2; 0; -1; 1]) /\ (forall a, Some a ∈ fd_arrs node_field -> unmarked 1000 a) /\
  fieldRenumberNodes 1000 (1 # 10) node_field [0; 1; 2; 0; -1; 1] = Throw /\ exists f', fieldRenumberNodes 1000 4 node_field [0; 1; 2; 0; -1; 1] = Ok f' /\ fd_arrs f' = [Some (DA true 1 [0; 1; 2]%Q)].
Proof. split; [exact node_carries|]. split; [apply mk_ok; discriminate|]. split; [apply merge_range|]. split; [apply merge_range|]. split; [exact node_unmarked|]. split; [vm_compute; done|]. eexists. split; [vm_compute; reflexivity|]. vm_compute. done. Qed.
(** The values that are not on nodes stay. *)
Theorem C80_others big eps (f : field Q) cells nb d p newNb : fd_disc f <> P1 -> stores (fd_mesh f) cells -> um_coords (fd_mesh f) = Some d -> sized d nb -> (forall n, used cells n -> n < nb) -> typed (fd_mesh f) cells -> zlen p = nb -> 0 < newNb -> (forall v, v ∈ p -> v < newNb) -> (forall t, 0 <= t < newNb -> t ∈ p) ->
  exists m', fieldRenumberNodes big eps f p = Ok (FD (fd_disc f) m' (fd_arrs f)) /\ stores m' (rename (ren p) <$> cells) /\ typed m' (rename (ren p) <$> cells) /\ um_dim m' = um_dim (fd_mesh f) /\ has_nodes m' newNb /\
     (forall t i q, 0 <= t -> last_pos p t i -> point (fd_mesh f) i q -> point m' t q).
Proof. exact (renumber_others big eps f cells nb d p newNb). Qed.
Print Assumptions C80_others.
(** A mesh without nodes: the largest value of an empty array is read. *)
Theorem C80_no_node_refuted big eps (f : field Q) d p : um_coords (fd_mesh f) = Some d -> da_nt d = 0 -> fieldRenumberNodes big eps f p = UB.
Proof. exact (no_node big eps f d p). Qed.
Print Assumptions C80_no_node_refuted.
Example C80_no_node_empty : fieldRenumberNodes 1000 1 (FD P1 (mk 2 0 []) []) [] = UB.
Proof. vm_compute. done. Qed.
