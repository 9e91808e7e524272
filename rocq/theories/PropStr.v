(** C40, C41, C42: structured meshes.  [ngs] is the number of nodes along each axis, [cells_st ngs] the number of cells. *)
From Verif Require Import Base DataArray SearchSpec StrModel StrSpec StrProofs StrProofs3 StrProofs4 StrProofs5 StrProofs6 StrProofs7 StrProofs8 StrProofs2.

(** * C40 *)
Theorem C40_nb_cells : forall ngs, Forall (Z.lt 1) ngs -> ngs <> [] -> getNumberOfCells ngs = Ok (grid_nb (cells_st ngs)).
Proof. exact nb_cells_ok. Qed.
Print Assumptions C40_nb_cells.
Theorem C40_nb_nodes : forall ngs, getNumberOfNodes ngs = grid_nb ngs.
Proof. exact nb_nodes_ok. Qed.
Print Assumptions C40_nb_nodes.
(** From an id to its position and back. *)
Theorem C40_cell_of_id : forall ngs id, dim_ok ngs -> Forall (Z.lt 1) ngs -> grid_nb (cells_st ngs) < 2147483648 -> 0 <= id < grid_nb (cells_st ngs) ->
  exists pos, getLocationFromCellId ngs id = Ok pos /\ in_grid (cells_st ngs) pos /\ forall i j k, take (length ngs) [i; j; k] = pos -> getCellIdFromPos ngs i j k = Ok id.
Proof. exact cell_bij. Qed.
Print Assumptions C40_cell_of_id.
(** From a position to its id and back; the ids run along the first axis first. *)
Theorem C40_cell_of_pos : forall ngs pos i j k, dim_ok ngs -> grid_nb (cells_st ngs) < 2147483648 -> in_grid (cells_st ngs) pos -> take (length ngs) [i; j; k] = pos ->
  getCellIdFromPos ngs i j k = Ok (grid_id (cells_st ngs) pos) /\ getLocationFromCellId ngs (grid_id (cells_st ngs) pos) = Ok pos.
Proof. exact cell_id_ok. Qed.
Print Assumptions C40_cell_of_pos.
Theorem C40_cell_throws : forall ngs id, Forall (Z.lt 1) ngs -> grid_nb (cells_st ngs) < 2147483648 -> ~ 0 <= id < grid_nb (cells_st ngs) -> getLocationFromCellId ngs id = Throw.
Proof. exact cell_loc_throw. Qed.
Print Assumptions C40_cell_throws.
Theorem C40_node_of_id : forall ngs id, dim_ok ngs -> Forall (Z.lt 0) ngs -> grid_nb ngs < 2147483648 -> 0 <= id < grid_nb ngs ->
  exists pos, getLocationFromNodeId ngs id = Ok pos /\ in_grid ngs pos /\ forall i j k, take (length ngs) [i; j; k] = pos -> getNodeIdFromPos ngs i j k = Ok id.
Proof. exact node_bij. Qed.
Print Assumptions C40_node_of_id.
Theorem C40_node_of_pos : forall ngs pos i j k, dim_ok ngs -> grid_nb ngs < 2147483648 -> in_grid ngs pos -> take (length ngs) [i; j; k] = pos ->
  getNodeIdFromPos ngs i j k = Ok (grid_id ngs pos) /\ getLocationFromNodeId ngs (grid_id ngs pos) = Ok pos.
Proof. exact node_id_ok. Qed.
Print Assumptions C40_node_of_pos.
Theorem C40_node_throws : forall ngs id, Forall (Z.lt 0) ngs -> grid_nb ngs < 2147483648 -> ~ 0 <= id < grid_nb ngs -> getLocationFromNodeId ngs id = Throw.
Proof. exact node_loc_throw. Qed.
Print Assumptions C40_node_throws.
(** Two positions never share an id, and ids stay in range. *)
Theorem C40_injective : forall st p q, in_grid st p -> in_grid st q -> grid_id st p = grid_id st q -> p = q.
Proof. exact grid_id_inj. Qed.
Print Assumptions C40_injective.
Theorem C40_range : forall st pos, in_grid st pos -> 0 <= grid_id st pos < grid_nb st.
Proof. exact grid_id_range. Qed.
Print Assumptions C40_range.
Example C40_ex : getCellIdFromPos [4; 3; 5] 2 1 3 = Ok 23 /\ getLocationFromCellId [4; 3; 5] 23 = Ok [2; 1; 3] /\ getNodeIdFromPos [4; 3; 5] 3 2 4 = Ok 59 /\ getLocationFromNodeId [4; 3; 5] 59 = Ok [3; 2; 4]
  /\ getLocationFromCellId [4; 3; 5] 24 = Throw /\ dim_ok [4; 3; 5].
Proof. vm_compute. repeat split; congruence. Qed.
(** Above 2^31 cells the products are computed on 32 bits: with 50000 x 50000 cells the id of the last cell is negative and no cell can be located. *)
Theorem C40_large_refuted : exists ngs pos, dim_ok ngs /\ in_grid (cells_st ngs) pos /\ (forall i j k, take (length ngs) [i; j; k] = pos -> getCellIdFromPos ngs i j k = Ok (-1794967297)) /\ getLocationFromCellId ngs 0 = Throw.
Proof.
  exists [50001; 50001], [49999; 49999]. split; [vm_compute; split; congruence|]. split; [repeat constructor; vm_compute; congruence|]. split; [|vm_compute; done].
  intros i j k H. simpl in H. injection H as -> ->. vm_compute. done.
Qed.
Print Assumptions C40_large_refuted.
(** With a flat axis there are cells, but no id can be located. *)
Theorem C40_flat_refuted : forall ngs id, Forall (Z.lt 0) ngs -> 1 ∈ ngs -> getLocationFromCellId ngs id = Throw.
Proof. exact flat_loc. Qed.
Print Assumptions C40_flat_refuted.
Example C40_flat_ex : Forall (Z.lt 0) [3; 1] /\ getNumberOfCells [3; 1] = Ok 2.
Proof. split; [repeat constructor; lia|vm_compute; done]. Qed.

(** * C41: boxes of cells *)
Theorem C41_explicit : forall st part, dim_ok st -> box_in st part -> exists ids, BuildExplicitIdsFrom st part = Ok ids /\ enumerates (cells_of st part) ids.
Proof. exact explicit_enum. Qed.
Print Assumptions C41_explicit.
Theorem C41_explicit_throws : forall st part, zlen st <> zlen part \/ ~ box_in st part -> BuildExplicitIdsFrom st part = Throw.
Proof. exact explicit_throw. Qed.
Print Assumptions C41_explicit_throws.
(** [IsPartStructured] recognises exactly the ordered id lists of the non empty boxes. *)
Theorem C41_isPart : forall ids st part, dim_ok st -> Forall (Z.lt 0) st -> Forall (Z.le 0) ids ->
  IsPartStructured ids st = Ok (Some part) <-> box_in st part /\ nonempty_box part /\ enumerates (cells_of st part) ids.
Proof. exact isPart_iff. Qed.
Print Assumptions C41_isPart.
Theorem C41_isPart_answers : forall ids st, dim_ok st -> Forall (Z.lt 0) st -> ids <> [] -> Forall (fun id => 0 <= id < grid_nb st) ids -> exists o, IsPartStructured ids st = Ok o.
Proof. exact isPart_total. Qed.
Print Assumptions C41_isPart_answers.
Theorem C41_isPart_empty : forall st, IsPartStructured [] st = Throw.
Proof. exact isPart_empty. Qed.
Print Assumptions C41_isPart_empty.
Theorem C41_roundtrip : forall st part, dim_ok st -> box_in st part -> nonempty_box part -> exists ids, BuildExplicitIdsFrom st part = Ok ids /\ IsPartStructured ids st = Ok (Some part).
Proof. exact isPart_inverse. Qed.
Print Assumptions C41_roundtrip.
Theorem C41_switchOn : forall st part v, dim_ok st -> box_in st part -> zlen v = grid_nb st ->
  exists v', SwitchOnIdsFrom st part v = Ok v' /\ zlen v' = zlen v /\ (forall c, cells_of st part c -> v' @ c = Some true) /\ (forall c, ~ cells_of st part c -> v' @ c = v @ c).
Proof. exact switchOn_ok. Qed.
Print Assumptions C41_switchOn.
Theorem C41_switchOn_throws : forall st part v, Forall (Z.le 0) st -> dim_ok st -> zlen st <> zlen part \/ zlen v <> grid_nb st \/ Exists (fun r => snd r < fst r) part -> SwitchOnIdsFrom st part v = Throw.
Proof. exact switchOn_throw. Qed.
Print Assumptions C41_switchOn_throws.
Theorem C41_extractBool : forall st f part out, dim_ok st -> box_in st part -> zlen f = grid_nb st ->
  exists ids r, enumerates (cells_of st part) ids /\ ExtractFieldOfBoolFrom st f part out = Ok r /\ Forall2 (fun c x => f @ c = Some x) ids r.
Proof. exact extractBool_enum. Qed.
Print Assumptions C41_extractBool.
Theorem C41_extractDouble : forall A st (f : da A) part, dim_ok st -> box_in st part -> da_alloc f = true -> da_wf f -> da_nt f = grid_nb st ->
  exists ids r, enumerates (cells_of st part) ids /\ ExtractFieldOfDoubleFrom st (Some f) part = Ok (DA true (da_nc f) r) /\ zlen r = zlen ids * da_nc f /\
    forall i c j, ids @ i = Some c -> ij (DA true (da_nc f) r) i j = ij f c j.
Proof. exact @extractDouble_enum. Qed.
Print Assumptions C41_extractDouble.
(** [MultiplyPartOf] multiplies each value of the box once and no other. *)
Theorem C41_multiply : forall A (mul : A -> A) st (d : da A) part, dim_ok st -> box_in st part -> da_alloc d = true -> da_wf d -> da_nt d = grid_nb st ->
  exists r, MultiplyPartOf mul st part (Some d) = Ok (DA true (da_nc d) r) /\ zlen r = zlen (da_vals d) /\
    (forall c j, cells_of st part c -> ij (DA true (da_nc d) r) c j = mul <$> ij d c j) /\
    (forall c j, ~ cells_of st part c -> ij (DA true (da_nc d) r) c j = ij d c j).
Proof. exact @multiply_ok. Qed.
Print Assumptions C41_multiply.
Theorem C41_multiply_throws : forall A (mul : A -> A) st (d : da A) part, dim_ok st -> Forall (Z.le 0) st ->
  da_alloc d = false \/ da_nt d <> grid_nb st \/ zlen st <> zlen part \/ ~ box_in st part -> MultiplyPartOf mul st part (Some d) = Throw.
Proof. exact @multiply_throw. Qed.
Print Assumptions C41_multiply_throws.
Example C41_ex : dim_ok [4; 3] /\ box_in [4; 3] [(1, 3); (1, 3)] /\ nonempty_box [(1, 3); (1, 3)] /\ BuildExplicitIdsFrom [4; 3] [(1, 3); (1, 3)] = Ok [5; 6; 9; 10] /\ IsPartStructured [5; 6; 9; 10] [4; 3] = Ok (Some [(1, 3); (1, 3)])
  /\ IsPartStructured [5; 6; 10; 9] [4; 3] = Ok None /\ IsPartStructured [5; 6; 9; 14] [4; 3] = Throw
  /\ MultiplyPartOf (Z.mul 10) [4; 3] [(1, 3); (1, 2)] (Some (vec [0; 1; 2; 3; 4; 5; 6; 7; 8; 9; 10; 11])) = Ok (vec [0; 1; 2; 3; 4; 50; 60; 7; 8; 9; 10; 11]).
Proof. split; [vm_compute; split; congruence|]. split; [repeat constructor; simpl; lia|]. split; [repeat constructor; simpl; lia|]. vm_compute. done. Qed.
(** Negative ids are recognised as a part that lies outside the mesh. *)
Theorem C41_isPart_negative_refuted : IsPartStructured [-1; 0] [3; 2] = Ok (Some [(-1, 1); (0, 1)]) /\ ~ box_in [3; 2] [(-1, 1); (0, 1)].
Proof. split; [vm_compute; done|]. intros H. inversion H; subst. simpl in *. lia. Qed.
Print Assumptions C41_isPart_negative_refuted.
(** An axis without cell: division by zero. *)
Theorem C41_isPart_zero_axis_refuted : IsPartStructured [0] [0; 2] = UB.
Proof. vm_compute. done. Qed.
Print Assumptions C41_isPart_zero_axis_refuted.
(** A box that leaves the mesh is not refused by [SwitchOnIdsFrom]: it writes out of the vector, or sets cells of the next row. *)
Theorem C41_switchOn_safe_refuted : SwitchOnIdsFrom [3; 2] [(2, 4); (1, 2)] (replicate 6 false) = UB /\ SwitchOnIdsFrom [3; 2] [(2, 4); (0, 1)] (replicate 6 false) = Ok [false; false; true; true; false; false].
Proof. vm_compute. done. Qed.
Print Assumptions C41_switchOn_safe_refuted.
Theorem C41_extract_safe_refuted : ExtractFieldOfBoolFrom [3; 2] (replicate 6 false) [(2, 4); (1, 2)] [] = UB.
Proof. vm_compute. done. Qed.
Print Assumptions C41_extract_safe_refuted.

(** * C42: arithmetic of boxes *)
Theorem C42_intersect : forall r1 r2 r, IntersectRanges r1 r2 = Ok r -> forall pos, in_box r pos <-> in_box r1 pos /\ in_box r2 pos.
Proof. exact intersect_ok. Qed.
Print Assumptions C42_intersect.
(** For two valid boxes of the same dimension an exception means that they have no common cell. *)
Theorem C42_intersect_throws : forall r1 r2, zlen r1 = zlen r2 -> valid_box r1 -> valid_box r2 -> IntersectRanges r1 r2 = Throw -> forall pos, ~ (in_box r1 pos /\ in_box r2 pos).
Proof. exact intersect_throw. Qed.
Print Assumptions C42_intersect_throws.
Theorem C42_intersect_invalid : forall r1 r2, zlen r1 <> zlen r2 \/ ~ valid_box r1 \/ ~ valid_box r2 -> IntersectRanges r1 r2 = Throw.
Proof. exact intersect_bad. Qed.
Print Assumptions C42_intersect_invalid.
Theorem C42_areIntersect : forall r1 r2, zlen r1 = zlen r2 -> Forall (fun r => fst r < snd r) r1 -> Forall (fun r => fst r < snd r) r2 ->
  exists b, AreRangesIntersect r1 r2 = Ok b /\ (b = true <-> exists pos, in_box r1 pos /\ in_box r2 pos).
Proof. exact areIntersect_ok. Qed.
Print Assumptions C42_areIntersect.
(** The answer is wrong for an empty box strictly inside the other. *)
Theorem C42_areIntersect_empty_refuted : AreRangesIntersect [(3, 3)] [(0, 7)] = Ok true /\ forall pos, ~ in_box [(3, 3)] pos.
Proof. split; [vm_compute; done|]. intros pos H. inversion H; subst. simpl in *. lia. Qed.
Print Assumptions C42_areIntersect_empty_refuted.
Theorem C42_toGlobal : forall big part check r, ChangeReferenceToGlobalOfCompactFrmt big part check = Ok r -> r = shift_box part (fst <$> big) /\ ChangeReferenceFromGlobalOfCompactFrmt big r check = Ok part.
Proof. exact to_from. Qed.
Print Assumptions C42_toGlobal.
Theorem C42_fromGlobal : forall big part check r, ChangeReferenceFromGlobalOfCompactFrmt big part check = Ok r -> r = shift_box part (Z.opp <$> (fst <$> big)) /\ ChangeReferenceToGlobalOfCompactFrmt big r check = Ok part.
Proof. exact from_to. Qed.
Print Assumptions C42_fromGlobal.
Theorem C42_fromGlobal_checked : forall big part, (exists r, ChangeReferenceFromGlobalOfCompactFrmt big part true = Ok r) <-> inside big part.
Proof. exact from_succeeds. Qed.
Print Assumptions C42_fromGlobal_checked.
(** Moving a box moves its cells. *)
Theorem C42_shift : forall part t pos, length t = length part -> in_box (shift_box part t) (zip_with Z.add pos t) /\ length pos = length part <-> in_box part pos.
Proof. exact in_shift. Qed.
Print Assumptions C42_shift.
Theorem C42_translate : forall part t, zlen t = zlen part -> TranslateCompactFrmt part t = Ok (shift_box part t).
Proof. exact translate_ok. Qed.
Print Assumptions C42_translate.
Theorem C42_translate_throws : forall part t, zlen t <> zlen part -> TranslateCompactFrmt part t = Throw.
Proof. exact translate_throw. Qed.
Print Assumptions C42_translate_throws.
Theorem C42_findTranslation : forall part t, zlen t = zlen part -> FindTranslationFrom part (shift_box part t) = Ok t.
Proof. exact find_shift. Qed.
Print Assumptions C42_findTranslation.
Theorem C42_findTranslation_inverse : forall from to, zlen from = zlen to -> box_dims from = box_dims to -> exists t, FindTranslationFrom from to = Ok t /\ TranslateCompactFrmt from t = Ok to.
Proof. exact shift_find. Qed.
Print Assumptions C42_findTranslation_inverse.
Theorem C42_findTranslation_throws : forall from to, zlen from <> zlen to -> FindTranslationFrom from to = Throw.
Proof. exact find_throw. Qed.
Print Assumptions C42_findTranslation_throws.
Theorem C42_ghost : forall g st part, 0 <= g -> box_in st part ->
  PutInGhostFormat g st part = Ok ((fun n => n + 2 * g) <$> st, shift_box part (replicate (length part) g)) /\
  box_in ((fun n => n + 2 * g) <$> st) (shift_box part (replicate (length part) g)).
Proof. exact ghost_ok. Qed.
Print Assumptions C42_ghost.
Theorem C42_ghost_throws : forall g st part, g < 0 \/ ~ box_in st part -> PutInGhostFormat g st part = Throw.
Proof. exact ghost_throw. Qed.
Print Assumptions C42_ghost_throws.
Example C42_ex : IntersectRanges [(0, 4); (2, 6)] [(1, 9); (0, 3)] = Ok [(1, 4); (2, 3)] /\ IntersectRanges [(0, 4)] [(5, 6)] = Throw /\ AreRangesIntersect [(0, 4); (2, 6)] [(1, 9); (0, 3)] = Ok true
  /\ ChangeReferenceToGlobalOfCompactFrmt [(3, 7); (2, 9)] [(0, 4); (1, 3)] true = Ok [(3, 7); (3, 5)] /\ inside [(3, 7); (2, 9)] [(3, 7); (3, 5)]
  /\ PutInGhostFormat 2 [4; 3] [(1, 3); (0, 3)] = Ok ([8; 7], [(3, 5); (2, 5)]).
Proof. vm_compute. repeat split; repeat constructor; congruence. Qed.
(** The smallest box around the true cells, each axis being enlarged to [m] cells: it lies in the mesh, contains every true cell, and an axis longer
    than [m] is bounded by true cells on both sides.  The count and the extracted criterion are right. *)
Theorem C42_findMinimalPart : forall m st crit red, dim_ok st -> Forall (fun n => 0 <= n <= maxId) st -> zlen crit = grid_nb st -> 0 <= m -> Forall (fun n => m <= n) st ->
  exists r part, FindMinimalPartOf m st crit red = Ok (nb_true crit, r, part) /\
    (exists ids, enumerates (cells_of st part) ids /\ Forall2 (fun c x => crit @ c = Some x) ids r) /\
    box_in st part /\ (forall pos, true_at st crit pos -> in_box part pos) /\ Forall (fun r => m <= snd r - fst r) part /\
    (forall a r, part @ a = Some r -> snd r - fst r = m \/ (exists pos, true_at st crit pos /\ pos @ a = Some (fst r)) /\ (exists pos, true_at st crit pos /\ pos @ a = Some (snd r - 1))).
Proof. exact fmp_enum. Qed.
Print Assumptions C42_findMinimalPart.
Theorem C42_findMinimalPart_throws : forall m st crit red, dim_ok st -> Forall (fun n => 0 <= n <= maxId) st -> m < 0 \/ zlen crit <> grid_nb st \/ Exists (fun n => n < m) st -> FindMinimalPartOf m st crit red = Throw.
Proof. exact fmp_throw. Qed.
Print Assumptions C42_findMinimalPart_throws.
Example C42_min_ex : dim_ok [4; 3] /\ Forall (fun n => 0 <= n <= maxId) [4; 3] /\
  FindMinimalPartOf 2 [4; 3] [false; false; false; false; false; true; false; false; false; true; false; false] [] = Ok (2, [false; true; false; true], [(0, 2); (1, 3)]).
Proof. split; [vm_compute; split; congruence|]. split; [repeat constructor; vm_compute; congruence|]. vm_compute. done. Qed.
