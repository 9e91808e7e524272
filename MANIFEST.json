{
 "claims": [
  {
   "property": "C01",
   "status": "proved",
   "theorems": [
    "C01_count_relative",
    "C01_count_relative_throw",
    "C01_count",
    "C01_count_throw",
    "C01_range",
    "C01_range_throw",
    "C01_pos"
   ],
   "note": ""
  },
  {
   "property": "C02",
   "status": "proved",
   "theorems": [
    "C02_slices_partition",
    "C02_slice_throw"
   ],
   "note": ""
  },
  {
   "property": "C03",
   "status": "proved",
   "theorems": [
    "C03_isRange",
    "C03_isRange_throw"
   ],
   "note": ""
  },
  {
   "property": "C04",
   "status": "proved",
   "theorems": [
    "C04_renumber",
    "C04_renumberR",
    "C04_renumber_then_renumberR",
    "C04_renumberR_then_renumber",
    "C04_inplace",
    "C04_inplaceR",
    "C04_multiset"
   ],
   "note": ""
  },
  {
   "property": "C05",
   "status": "proved",
   "theorems": [
    "C05_renumberInPlace",
    "C05_renumberInPlaceR"
   ],
   "note": ""
  },
  {
   "property": "C06",
   "status": "proved",
   "theorems": [
    "C06_renumberAndReduce",
    "C06_renumberAndReduce_full"
   ],
   "note": ""
  },
  {
   "property": "C07",
   "status": "proved",
   "theorems": [
    "C07_invertO2N",
    "C07_invertO2N_throw",
    "C07_invertO2NBis",
    "C07_invertO2NBis_throw",
    "C07_invertN2O",
    "C07_invertN2O_throw",
    "C07_inverse_of_permutation",
    "C07_twice",
    "C07_variants_agree",
    "C07_surjective",
    "C07_optimized",
    "C07_giveN2O"
   ],
   "note": ""
  },
  {
   "property": "C08",
   "status": "proved",
   "theorems": [
    "C08_buildPermutationArr",
    "C08_buildPermutationArr_throws",
    "C08_FindPermutation",
    "C08_FindPermutation_throws",
    "C08_FindPermutationDuplicate",
    "C08_FindPermutationDuplicate_throws"
   ],
   "note": ""
  },
  {
   "property": "C09",
   "status": "proved",
   "theorems": [
    "C09_checkAndPreparePermutation",
    "C09_checkAndPreparePermutation_throws",
    "C09_buildPermArrPerLevel"
   ],
   "note": ""
  },
  {
   "property": "C10",
   "status": "proved",
   "theorems": [
    "C10_selectByTupleId",
    "C10_safe_throw",
    "C10_safe_same"
   ],
   "note": ""
  },
  {
   "property": "C11",
   "status": "partial",
   "theorems": [
    "C11_slice_partial",
    "C11_slice_invalid",
    "C11_slice_safe_refuted",
    "C11_subArray_partial",
    "C11_subArray_throw",
    "C11_subArray_safe_refuted"
   ],
   "note": "Equivalence proved for slices that stay in the array and for invalid triples. The claim that a slice leaving the array raises an exception is false of the code (no bound check, line 1705): C11_slice_safe_refuted. subArray with end<bg is not rejected: C11_subArray_safe_refuted."
  },
  {
   "property": "C12",
   "status": "proved",
   "theorems": [
    "C12_selectByTupleRanges",
    "C12_throw"
   ],
   "note": ""
  },
  {
   "property": "C13",
   "status": "proved",
   "theorems": [
    "C13_findIdsEqual",
    "C13_findIdsNotEqual",
    "C13_findIdsEqualList",
    "C13_findIdsNotEqualList",
    "C13_findIds_order",
    "C13_findIdsInRange",
    "C13_findIdsNotInRange",
    "C13_findIdFirstEqual",
    "C13_findIdFirstEqualAny",
    "C13_count",
    "C13_partition",
    "C13_bad_shape"
   ],
   "note": ""
  },
  {
   "property": "C14",
   "status": "proved",
   "theorems": [
    "C14_findIdSequence",
    "C14_findIdsEqualTuple",
    "C14_findIdFirstEqualTuple"
   ],
   "note": ""
  },
  {
   "property": "C15",
   "status": "proved",
   "theorems": [
    "C15_buildComplement",
    "C15_buildComplement_throws",
    "C15_involution",
    "C15_buildSubstraction",
    "C15_buildSubstraction_throws",
    "C15_optimized"
   ],
   "note": ""
  },
  {
   "property": "C16",
   "status": "proved",
   "theorems": [
    "C16_BuildUnion",
    "C16_BuildUnion_throws",
    "C16_BuildIntersection",
    "C16_BuildIntersection_throws"
   ],
   "note": ""
  },
  {
   "property": "C17",
   "status": "partial",
   "theorems": [
    "C17_buildUnique",
    "C17_buildUnique_runs",
    "C17_buildUniqueNotSorted",
    "C17_buildUniqueNotSorted_empty_refuted",
    "C17_getDifferentValues",
    "C17_indexOfSameConsecutiveValueGroups"
   ],
   "note": "Proved for sorted/any arrays; buildUniqueNotSorted needs a non empty array whose value range fits the integer type. On an empty array the code computes max-min with max=-big,min=big: signed overflow (C17_buildUniqueNotSorted_empty_refuted)."
  },
  {
   "property": "C18",
   "status": "proved",
   "theorems": [
    "C18_computeOffsetsFull",
    "C18_computeOffsets",
    "C18_deltaShiftIndex",
    "C18_deltaShiftIndex_throw",
    "C18_sizes_of_offsets",
    "C18_offsets_of_sizes"
   ],
   "note": ""
  },
  {
   "property": "C19",
   "status": "proved",
   "theorems": [
    "C19_location",
    "C19_throws"
   ],
   "note": ""
  },
  {
   "property": "C20",
   "status": "proved",
   "theorems": [
    "C20_explicit",
    "C20_explicit_throws",
    "C20_scaled",
    "C20_scaled_throws"
   ],
   "note": ""
  },
  {
   "property": "C21",
   "status": "partial",
   "theorems": [
    "C21_rangesInList_partial",
    "C21_rangesInList_safe_refuted"
   ],
   "note": "Proved for strictly increasing offsets and ids when the list does not stop strictly inside a range it fills from its beginning. Otherwise the code reads *tupPtr at the end of the list (line 6839): C21_rangesInList_safe_refuted. Not covered: repeated ids, empty ranges (the code treats them inconsistently)."
  },
  {
   "property": "C22",
   "status": "proved",
   "theorems": [
    "C22_extract",
    "C22_extract_throws",
    "C22_extract_slice",
    "C22_put_skyline"
   ],
   "note": ""
  },
  {
   "property": "C23",
   "status": "proved",
   "theorems": [
    "C23_set",
    "C23_set_throws",
    "C23_set_slice",
    "C23_set_slice_throws",
    "C23_same_idx",
    "C23_same_idx_throws",
    "C23_same_idx_slice"
   ],
   "note": ""
  },
  {
   "property": "C24",
   "status": "partial",
   "theorems": [
    "C24_remove_partial",
    "C24_remove_offset0_partial",
    "C24_remove_offset_refuted"
   ],
   "note": "For a null offset the claim is proved. For a positive offset the code keeps only the tail of each pack from the offset on (the values before the offset are lost): C24_remove_offset_refuted; C24_remove_partial states exactly what it does for every offset."
  },
  {
   "property": "C25",
   "status": "partial",
   "theorems": [
    "C25_families",
    "C25_families_throw",
    "C25_counter_refuted"
   ],
   "note": "Proved for every list of groups and every n up to 2^31-1 elements. Line 9454 counts the elements with an int: a larger n overflows it (C25_counter_refuted)."
  },
  {
   "property": "C26",
   "status": "proved",
   "theorems": [
    "C26_partitionByDifferentValues",
    "C26_partitionByDifferentValues_throw",
    "C26_indexOfSameConsecutiveValueGroups"
   ],
   "note": ""
  },
  {
   "property": "C27",
   "status": "partial",
   "theorems": [
    "C27_changeSurjectiveFormat",
    "C27_changeSurjectiveFormat_throw",
    "C27_convertIndexArrayToO2N_partial",
    "C27_convertIndexArrayToO2N_throw_partial",
    "C27_unsorted_pack_refuted",
    "C27_first_element_refuted",
    "C27_empty_pack_refuted"
   ],
   "note": "changeSurjectiveFormat is proved in full. ConvertIndexArrayToO2N is proved for disjoint non empty packs beginning with their smallest element, which is in range; each of these conditions is needed: C27_unsorted_pack_refuted, C27_first_element_refuted, C27_empty_pack_refuted."
  },
  {
   "property": "C28",
   "status": "partial",
   "theorems": [
    "C28_groups_partial",
    "C28_throw",
    "C28_disjoint_refuted"
   ],
   "note": "Every pair is inside a group and groups only hold linked ids; if the groups returned are disjoint they are the connected components. They need not be disjoint: C28_disjoint_refuted."
  },
  {
   "property": "C29",
   "status": "proved",
   "theorems": [
    "C29_splitPairsIntoChains",
    "C29_sortToHaveConsecutivePairs",
    "C29_sortToHaveConsecutivePairs_throw",
    "C29_sortEachPairToMakeALinkedList",
    "C29_sortEachPairToMakeALinkedList_throw",
    "C29_sortEachPairToMakeALinkedList_one",
    "C29_fromLinkedListOfPairToList",
    "C29_fromLinkedListOfPairToList_throw",
    "C29_roundtrip",
    "C29_trail_missed"
   ],
   "note": "Proved as stated, with the exact throwing conditions. C29_trail_missed shows that the greedy search may throw although a trail through all pairs exists; C29_sortToHaveConsecutivePairs_throw shows it cannot happen when no id is in more than two pairs."
  },
  {
   "property": "C30",
   "status": "proved",
   "theorems": [
    "C30_slices",
    "C30_throws"
   ],
   "note": ""
  },
  {
   "property": "C31",
   "status": "proved",
   "theorems": [
    "C31_fromNoInterlace",
    "C31_toNoInterlace",
    "C31_interlace_throw",
    "C31_from_to",
    "C31_to_from",
    "C31_rearrange",
    "C31_rearrange_throw",
    "C31_rearrange_undo",
    "C31_transpose",
    "C31_explode",
    "C31_Meld",
    "C31_Meld_throw",
    "C31_explode_Meld",
    "C31_Meld_explode",
    "C31_meldWith",
    "C31_meldWith_throw"
   ],
   "note": ""
  },
  {
   "property": "C32",
   "status": "proved",
   "theorems": [
    "C32_circularPermutation",
    "C32_circularPermutation_throw",
    "C32_circularPermutation_add",
    "C32_circularPermutationPerTuple",
    "C32_circularPermutationPerTuple_throw",
    "C32_circularPermutation_strict",
    "C32_strict_copy_undefined",
    "C32_reverse",
    "C32_reverse_throw",
    "C32_reverse_twice",
    "C32_reversePerTuple",
    "C32_reversePerTuple_twice"
   ],
   "note": "Proved with std::copy on overlapping ranges behaving as a move of the block, which is what the standard libraries do for arithmetic types. The C++ standard leaves it undefined when the destination is inside the source: C32_strict_copy_undefined gives a rotation (2 out of 3 tuples) where the code does it; C32_circularPermutation_strict shows that rotations by at most half of the tuples do not."
  },
  {
   "property": "C33",
   "status": "partial",
   "theorems": [
    "C33_sequence",
    "C33_call",
    "C33_writeOnPlace_refuted"
   ],
   "note": "Proved for pushBack, pushBackValsSilent, popBack, reserve, pack, insertAtTheEnd and writeOnPlace at an offset inside the block. writeOnPlace beyond the current size writes outside the block: C33_writeOnPlace_refuted. Calls on arrays with at least one component."
  },
  {
   "property": "C34",
   "status": "proved",
   "theorems": [
    "C34_released_once",
    "C34_no_leak",
    "C34_read_only"
   ],
   "note": ""
  },
  {
   "property": "C35",
   "status": "partial",
   "theorems": [
    "C35_lifetime",
    "C35_pointers",
    "C35_threads",
    "C35_assign_same_pointer_refuted",
    "C35_assign_from_member_refuted"
   ],
   "note": "Proved for every program that respects ownership, single threaded (C35_lifetime, C35_pointers) and for every schedule of threads on one object (C35_threads). Two natural uses are excluded because they are wrong: x = x.retn() leaks (C35_assign_same_pointer_refuted) and x = x->member is a use after free (C35_assign_from_member_refuted)."
  },
  {
   "property": "C36",
   "status": "partial",
   "theorems": [
    "C36_declare_newest",
    "C36_updateTime",
    "C36_checkConst",
    "C36_null",
    "C36_nested_refuted"
   ],
   "note": "Proved for aggregates of leaf objects. Aggregates of aggregates (a field on a mesh) do not refresh the inner aggregate: C36_nested_refuted."
  },
  {
   "property": "C37",
   "status": "partial",
   "theorems": [
    "C37_history3",
    "C37_history2",
    "C37_get",
    "C37_get_throws",
    "C37_deletes_throws",
    "C37_replaceSimplePacks",
    "C37_replaceSimplePacks_throws",
    "C37_groupPacks",
    "C37_groupPacks_throws",
    "C37_unique",
    "C37_findPackIds",
    "C37_aggregate",
    "C37_aggregate_throws",
    "C37_threshold",
    "C37_determined",
    "C37_get_safe_refuted",
    "C37_push_safe_refuted",
    "C37_delete_empty_refuted",
    "C37_delete_outside_refuted",
    "C37_replace_others_refuted",
    "C37_strict_copy_undefined"
   ],
   "note": "Histories of pushBackPack/replacePack/deletePack and of the simple-pack calls refine operations on lists of lists, plus the bulk functions. Not true of the code, and proved as refutations: the checks accept one past the last pack (undefined behaviour), an empty pack cannot be deleted, a relative pack id outside the super pack is not refused, replaceSimplePacks sorts packs it was not asked to replace; the std::copy calls that move to the right overlap."
  },
  {
   "property": "C38",
   "status": "partial",
   "theorems": [
    "C38_build",
    "C38_convert",
    "C38_roundtrip",
    "C38_no_face_refuted"
   ],
   "note": "Round trip proved for every connectivity in the polyhedron format; cells without any face are the exception (C38_no_face_refuted)."
  },
  {
   "property": "C39",
   "status": "partial",
   "theorems": [
    "C39_toDAI",
    "C39_toDAI_throws",
    "C39_count",
    "C39_deepCopy",
    "C39_isEqual",
    "C39_simplify",
    "C39_serialize",
    "C39_serialize_list",
    "C39_add",
    "C39_compose",
    "C39_compose_throws",
    "C39_count_down_refuted",
    "C39_add_down_refuted",
    "C39_simplify_count_refuted",
    "C39_compose_list_refuted",
    "C39_compose_slice_refuted",
    "C39_two_slices_refuted"
   ],
   "note": "Proved for parts denoting an id sequence. Not true of the code: decreasing slices cannot be counted or added together; composition of a list with a slice of step 1 is not bounds-checked; composition of a slice with a part reads out of bounds instead of throwing."
  },
  {
   "property": "C40",
   "status": "partial",
   "theorems": [
    "C40_nb_cells",
    "C40_nb_nodes",
    "C40_cell_of_id",
    "C40_cell_of_pos",
    "C40_cell_throws",
    "C40_node_of_id",
    "C40_node_of_pos",
    "C40_node_throws",
    "C40_injective",
    "C40_range",
    "C40_large_refuted",
    "C40_flat_refuted"
   ],
   "note": "The bijections are proved for 1 to 3 axes with at least two nodes and fewer than 2^31 cells (nodes). Refuted outside: the products go through std::accumulate with an int initial value, so above 2^31 cells ids are wrong and no cell can be located (C40_large_refuted); with a flat axis getNumberOfCells is positive but every getLocationFromCellId throws (C40_flat_refuted)."
  },
  {
   "property": "C41",
   "status": "partial",
   "theorems": [
    "C41_explicit",
    "C41_explicit_throws",
    "C41_isPart",
    "C41_isPart_answers",
    "C41_isPart_empty",
    "C41_roundtrip",
    "C41_switchOn",
    "C41_switchOn_throws",
    "C41_extractBool",
    "C41_extractDouble",
    "C41_multiply",
    "C41_multiply_throws",
    "C41_isPart_negative_refuted",
    "C41_isPart_zero_axis_refuted",
    "C41_switchOn_safe_refuted",
    "C41_extract_safe_refuted"
   ],
   "note": "All claims proved for boxes inside the mesh. Refuted for other arguments: IsPartStructured answers true for negative ids and divides by zero on an axis without cell; SwitchOnIdsFrom and ExtractFieldOfBoolFrom do not check that the box lies in the mesh and access memory out of the vector."
  },
  {
   "property": "C42",
   "status": "partial",
   "theorems": [
    "C42_intersect",
    "C42_intersect_throws",
    "C42_intersect_invalid",
    "C42_areIntersect",
    "C42_areIntersect_empty_refuted",
    "C42_toGlobal",
    "C42_fromGlobal",
    "C42_fromGlobal_checked",
    "C42_shift",
    "C42_translate",
    "C42_translate_throws",
    "C42_findTranslation",
    "C42_findTranslation_inverse",
    "C42_findTranslation_throws",
    "C42_ghost",
    "C42_ghost_throws",
    "C42_findMinimalPart",
    "C42_findMinimalPart_throws"
   ],
   "note": "All claims proved; AreRangesIntersect is wrong when one of the boxes is empty and strictly inside the other (C42_areIntersect_empty_refuted)."
  },
  {
   "property": "C43",
   "status": "partial",
   "theorems": [
    "C43_connectivity",
    "C43_connectivity_throws",
    "C43_connectivity_order",
    "C43_reverse",
    "C43_transpose",
    "C43_nodeIds",
    "C43_nodeIds_set",
    "C43_reverse_empty_refuted",
    "C43_nodeIds_flat_refuted",
    "C43_nodeIds_order_refuted",
    "C43_nodeIds_range_refuted",
    "C43_one_node_refuted"
   ],
   "note": "Build1GTNodalConnectivity and getReverseNodalConnectivity in dimensions 1-3, flat axes included, are transposes of one another; getNodeIdsOfCell for grids without flat axis. Refuted: no node (unallocated output), flat first axis in getNodeIdsOfCell, corner order, unchecked cell id, single node."
  },
  {
   "property": "C44",
   "status": "partial",
   "theorems": [
    "C44_condense",
    "C44_condense_ghost",
    "C44_conserved",
    "C44_conserved_ghost",
    "C44_spread",
    "C44_spread_ghost",
    "C44_spread_zone",
    "C44_source_total",
    "C44_spread_condense",
    "C44_spread_condense_ghost",
    "C44_refused",
    "C44_sizes_refused",
    "C44_sizes_refused_ghost",
    "C44_spread3D_refuted",
    "C44_spread3D_values_refuted",
    "C44_spread_empty_refuted",
    "C44_box_unchecked_refuted"
   ],
   "note": "The four transfer functions of MEDCouplingIMesh with and without ghost cells, dimensions 1 to 3, any addition on the values; the sum of a cell is taken in the order of the fine tuples, so it also describes floating point. Conservation is stated for exact addition. Refuted: SpreadCoarseToFine in dimension 3 uses the third factor for the second one (out of bounds, or cells left unwritten), divides by zero on an empty patch; no function checks that the patch lies in the coarse grid."
  },
  {
   "property": "C45",
   "status": "partial",
   "theorems": [
    "C45_grid",
    "C45_counts",
    "C45_compose",
    "C45_compose_one",
    "C45_compose_throws",
    "C45_components",
    "C45_globalToLocal",
    "C45_one_process",
    "C45_one_element",
    "C45_local_number",
    "C45_sum",
    "C45_round_trip",
    "C45_round_trip_local",
    "C45_bounds",
    "C45_any_rank_refuted",
    "C45_outside_refuted",
    "C45_bounds_refuted",
    "C45_no_group_refuted"
   ],
   "note": "BlockTopology built from a grid, from a number of elements and by composition with a component topology; both directions of the numbering, local sizes, bounds. Refuted: localToGlobal takes the local size of the calling rank, globalToLocal accepts any id, getLocalArrayMinMax reads out of its arrays when components are distributed, composition of a group-less component topology yields a topology without group."
  },
  {
   "property": "C46",
   "status": "partial",
   "theorems": [
    "C46_block_topology",
    "C46_block_topology_same",
    "C46_block_order_refuted",
    "C46_array_int",
    "C46_array_double",
    "C46_receiver_int_refuted",
    "C46_receiver_double_refuted",
    "C46_part_definition"
   ],
   "note": "Arrays, part definitions and block topologies: round trips proved. Refuted: block topologies of groups whose ranks are not sorted; an array that is not allocated sent to a receiver that already holds values (integers: old values kept; doubles: strings read out of bounds)."
  },
  {
   "property": "C47",
   "status": "proved",
   "theorems": [
    "C47_aggregate",
    "C47_aggregate_throws",
    "C47_aggregate2",
    "C47_aggregate2_throws",
    "C47_aggregateIndexes",
    "C47_aggregateIndexes_throws"
   ],
   "note": ""
  },
  {
   "property": "C48",
   "status": "partial",
   "theorems": [
    "C48_set1",
    "C48_set2",
    "C48_set3",
    "C48_set4",
    "C48_simple1",
    "C48_simple2",
    "C48_simple3",
    "C48_simple4",
    "C48_null",
    "C48_itself",
    "C48_itself_values_refuted"
   ],
   "note": "The eight writers are modelled on the flat memory with the position of every write. When the source is another array: success exactly on the announced conditions, exact values (last write wins with repeated ids), rest untouched, else an exception with at most the tuples before the first invalid id written. A null source throws. The array itself as source has the outcome of a copy (memory safe), but not its values (refuted)."
  },
  {
   "property": "C49",
   "status": "partial",
   "theorems": [
    "C49_contig_partial",
    "C49_slice_partial",
    "C49_adv",
    "C49_null",
    "C49_itself",
    "C49_start_refuted",
    "C49_slice_start_refuted",
    "C49_slice_begin_refuted"
   ],
   "note": "setContigPartOfSelectedValues, its slice variant and setPartOfValuesAdv. Partial: a non negative start (and slice begin) is assumed, since the code checks no lower bound; the unrestricted claim is refuted."
  },
  {
   "property": "C50",
   "status": "partial",
   "theorems": [
    "C50_general",
    "C50_add",
    "C50_substract",
    "C50_multiply",
    "C50_divide",
    "C50_modulus_partial",
    "C50_modulus_component_refuted",
    "C50_modulus_safe_refuted",
    "C50_modulus_shape_refuted",
    "C50_pow",
    "C50_itself",
    "C50_pow_itself",
    "C50_null"
   ],
   "note": "General theorem for any value type and any operation defined on the operands (division by zero is excluded, as documented), and the instances on integers. modulusEqual is partial: its documented one component case always throws, and one tuple of another width is read out of bounds or accepted (refuted). Overflow is not modelled."
  },
  {
   "property": "C51",
   "status": "proved",
   "theorems": [
    "C51_isIota",
    "C51_isUniform",
    "C51_checkUniformAndGuess",
    "C51_hasUniqueValues",
    "C51_isMonotonic",
    "C51_isStrictlyMonotonic"
   ],
   "note": ""
  },
  {
   "property": "C52",
   "status": "proved",
   "theorems": [
    "C52_changeValue",
    "C52_countValue",
    "C52_checkAllIdsInRange"
   ],
   "note": ""
  },
  {
   "property": "C53",
   "status": "proved",
   "theorems": [
    "C53_indicesOfSubPart",
    "C53_indicesOfSubPart_throws",
    "C53_findIdForEach",
    "C53_findIdForEach_throws",
    "C53_occurenceRankInThis"
   ],
   "note": ""
  },
  {
   "property": "C54",
   "status": "proved",
   "theorems": [
    "C54_changeNbOfComponents",
    "C54_keepSelectedComponents",
    "C54_keepSelectedComponents_throw",
    "C54_setSelectedComponents",
    "C54_setSelectedComponents_throw",
    "C54_duplicateEachTupleNTimes",
    "C54_duplicateEachTupleNTimes_throw",
    "C54_duplicateNTimes"
   ],
   "note": ""
  },
  {
   "property": "C55",
   "status": "partial",
   "theorems": [
    "C55_single_type",
    "C55_single_type_index",
    "C55_single_type_index_sent",
    "C55_curvilinear",
    "C55_curvilinear_sent",
    "C55_image",
    "C55_cartesian",
    "C55_cartesian_same",
    "C55_unstructured",
    "C55_unstructured_same",
    "C55_extruded",
    "C55_no_coords_refuted",
    "C55_components_refuted",
    "C55_axis_name_refuted",
    "C55_connectivity_name_refuted",
    "C55_flat_coords_refuted",
    "C55_extruded_time_refuted"
   ],
   "note": "Proved for every mesh of the seven classes with what is rebuilt stated exactly; lost or undefined cases are refutations: names of axes of Cartesian meshes, names of the connectivity arrays of unstructured meshes, time of extruded meshes, meshes without coordinates, coordinates without component, connectivity and index with different component counts."
  },
  {
   "property": "C56",
   "status": "partial",
   "theorems": [
    "C56_general",
    "C56_general_symmetric",
    "C56_Substract",
    "C56_Divide",
    "C56_Modulus",
    "C56_Add",
    "C56_Multiply",
    "C56_Add_empty_refuted",
    "C56_Pow",
    "C56_null",
    "C56_negate",
    "C56_computeAbs",
    "C56_sumPerTuple",
    "C56_applyLin",
    "C56_applyLin_component",
    "C56_abs",
    "C56_applyInv",
    "C56_applyDivideBy",
    "C56_applyModulus",
    "C56_applyRModulus",
    "C56_applyPow",
    "C56_applyRPow"
   ],
   "note": "Same model of std::transform as C50, to a new array. Add/Multiply need a commutative operation. Their documented one tuple case throws for an empty array (refuted). Overflow is not modelled; component names are not modelled here."
  },
  {
   "property": "C57",
   "status": "partial",
   "theorems": [
    "C57_transfer_partial",
    "C57_partial_transfer_partial",
    "C57_reverse",
    "C57_reverse_transposed",
    "C57_conserved_sum",
    "C57_conserved_integral",
    "C57_proportional",
    "C57_maximum",
    "C57_constant",
    "C57_refused",
    "C57_reverse_refused",
    "C57_small_target_refuted",
    "C57_after_removal_refuted",
    "C57_point_refuted",
    "C57_refused_matrix_refuted",
    "C57_no_nature_refuted"
   ],
   "note": "Doubles are rationals; the crude matrix is an input (the geometric intersectors are not modelled). Proved for every history of calls and every nature, with the conservation and maximum consequences. Missing and refuted: removal of coefficients between two transfers (stale divisors), IntensiveConservation with a mesh of dimension -1, a target whose number of entities is not that prepared (out-of-bounds write), a transfer after a refused matrix (array without values), a transfer without nature (throws but has attached an array)."
  },
  {
   "property": "C58",
   "status": "proved",
   "theorems": [
    "C58_set",
    "C58_set_refused",
    "C58_reverse",
    "C58_nullify",
    "C58_max",
    "C58_nullify_relative",
    "C58_extruded"
   ],
   "note": "Doubles are rationals; rows are sorted association lists for std::map."
  },
  {
   "property": "C59",
   "status": "partial",
   "theorems": [
    "C59_intersecting",
    "C59_around",
    "C59_points",
    "C59_terminals",
    "C59_interactions",
    "C59_interactions_throws",
    "C59_positive_tolerance_refuted"
   ],
   "note": "Doubles are rationals without infinity. Refuted: the documentation of the class says that a positive tolerance enlarges the searched box; getIntersectingElems tightens it."
  },
  {
   "property": "C60",
   "status": "partial",
   "theorems": [
    "C60_common",
    "C60_common_throws",
    "C60_common_int",
    "C60_common_int_throws",
    "C60_near",
    "C60_near_throws",
    "C60_included",
    "C60_included_throws",
    "C60_different",
    "C60_one_group_refuted",
    "C60_one_group_limit_refuted",
    "C60_euclidian_refuted"
   ],
   "note": "Doubles are rationals. Refuted: a tuple is in one group only (coincidence within a tolerance is not transitive; with a limit the groups overlap even for equal tuples); the euclidian distance of the documentation of computeTupleIdsNearTuples is the infinite norm. getDifferentValues is proved for limit <= 0 and transitive coincidence."
  },
  {
   "property": "C61",
   "status": "partial",
   "theorems": [
    "C61_closest",
    "C61_minimal",
    "C61_distance",
    "C61_distance_throws",
    "C61_minmax",
    "C61_closest_throws",
    "C61_components_refuted",
    "C61_empty_refuted"
   ],
   "note": "Doubles are rationals; sqrt is any function at least as great as the square root, the cubic root any function; squared distances below DBL_MAX. Refuted: without tuple in this the search does not end; with four components or more the exception is not reached, the memory behind bounds[6] is written."
  },
  {
   "property": "C62",
   "status": "partial",
   "theorems": [
    "C62_faces",
    "C62_edges",
    "C62_border",
    "C62_micro",
    "C62_polyhedron",
    "C62_polyhedron_edges",
    "C62_linear",
    "C62_quadratic",
    "C62_extruded",
    "C62_change2D",
    "C62_change1D",
    "C62_invert",
    "C62_invert_polygon",
    "C62_invert_quadratic_polygon",
    "C62_invert_segment",
    "C62_invert_throws",
    "C62_invert_unknown",
    "C62_status",
    "C62_compatible",
    "C62_poly",
    "C62_micro_number",
    "C62_other_numbering",
    "C62_status_quadratic_refuted",
    "C62_invert_seg3_refuted",
    "C62_change2D_centre_refuted",
    "C62_polyline_refuted",
    "C62_hexa27_refuted",
    "C62_polyline_sons_refuted"
   ],
   "note": "The table of the models is generated from the constructor of CellModel (tools/gen_celltable.py). A cell is the list of its nodes; faces are compared as cycles of edges. Refuted: the status of a quadratic 2D cell with itself is false; the inverter of SEG3 exchanges an end and the middle; changeOrientationOf2D of TRI7 and QUAD9 writes out of the array; changeOrientationOf1D of a polyline does not give the reversed line; HEXA27 has 4294967295 edges, none of which can be read; a polyline announces sons that cannot be asked for."
  },
  {
   "property": "C63",
   "status": "partial",
   "theorems": [
    "C63_allocate",
    "C63_insert",
    "C63_insert_throws",
    "C63_build",
    "C63_check",
    "C63_geom",
    "C63_geom_refuted",
    "C63_count_refuted",
    "C63_index_refuted"
   ],
   "note": "The mesh holds its coordinates (rationals), connectivity, index and types. Refuted: checkGeomConsistency rejects a valid polyhedron of three faces or more (the separators count as repeated nodes); an empty index passes checkConsistency with -1 cells; checkConsistency reads out of the connectivity when the index leads there."
  },
  {
   "property": "C64",
   "status": "partial",
   "theorems": [
    "C64_fetched",
    "C64_all_fetched",
    "C64_in_use",
    "C64_conn",
    "C64_offset",
    "C64_map",
    "C64_map_throws",
    "C64_renumber",
    "C64_center",
    "C64_zip",
    "C64_merge",
    "C64_merge_throws",
    "C64_merge_center",
    "C64_duplicate",
    "C64_duplicate_throws",
    "C64_merge_refuted",
    "C64_duplicate_refuted",
    "C64_remove_refuted"
   ],
   "note": "mergeNodes under transitivity of nearness on the nodes. Refuted: without it a node may be moved by more than the precision; a node listed twice in duplicateNodes is replaced by its last copy, not the first as documented; removing a node in use by a negative number in renumberNodes puts a separator in its cells."
  },
  {
   "property": "C65",
   "status": "proved",
   "theorems": [
    "C65_reverse",
    "C65_lying_on",
    "C65_nb_nodes",
    "C65_nb_distinct_nodes"
   ],
   "note": "Node ids of the cells are within the coordinates for the reverse connectivity (otherwise it writes out of its arrays)."
  },
  {
   "property": "C66",
   "status": "proved",
   "theorems": [
    "C66_part",
    "C66_part_throws",
    "C66_slice",
    "C66_slice_throws",
    "C66_renumber",
    "C66_renumber_check",
    "C66_renumber_throws"
   ],
   "note": "Closed for meshes whose connectivity holds cells."
  },
  {
   "property": "C67",
   "status": "partial",
   "theorems": [
    "C67_alike_equivalence",
    "C67_findCommonCells_partial",
    "C67_zipConnectivityTraducer_partial",
    "C67_MergeUMeshesOnSameCoords",
    "C67_FuseUMeshesOnSameCoords_partial",
    "C67_areCellsIncludedIn_partial",
    "C67_areCellsIncludedIn_nothing",
    "C67_policy0_types_refuted",
    "C67_policy1_quadratic_refuted",
    "C67_polyhedron_refuted",
    "C67_policy7_refuted",
    "C67_areCellsIncludedInPolicy7_refuted",
    "C67_policy9_refuted",
    "C67_missing_cell_refuted",
    "C67_empty_mesh_refuted"
   ],
   "note": "Proved for policies 0 to 3 on cells that each have a node and no negative node but the separator; policy 1 on known types of a dimension other than 3 (it throws in dimension 3). Equality of policy 0 is that of the list of nodes: the documented comparison of types is not made (refuted). Refuted: policy 1 on quadratic cells, groups of one polyhedron, policy 7 (out of bounds, wrong groups, inclusion of a mesh in itself), policy 9 (overlapping groups), id of a cell not found when the mesh has duplicates, mesh without cells in areCellsIncludedIn. Policies 7, 8, 9 have no positive theorem."
  },
  {
   "property": "C68",
   "status": "partial",
   "theorems": [
    "C68_sons",
    "C68_sons_1D",
    "C68_sons_2D",
    "C68_sons_3D",
    "C68_sons_polyhedron",
    "C68_descending",
    "C68_reverse",
    "C68_oriented",
    "C68_coherent",
    "C68_edges",
    "C68_edges_sons",
    "C68_edges_cell",
    "C68_edges_polyhedron",
    "C68_micro",
    "C68_micro_sons",
    "C68_micro_cell",
    "C68_micro3D_refuted",
    "C68_oriented1D_refuted",
    "C68_dimension0_refuted"
   ],
   "note": "Sons with the same set of nodes (and as many) are one son, as in the code. Signs: linear sons, of dimension 1 or 2, where those on the same nodes are one turned, or the other way (always so with three nodes at most; proved). Polylines have no sons (the code throws). HEXA27 has no table of edges. Refuted: explodeMeshIntoMicroEdges on 3D meshes, buildDescendingConnectivity2 on 1D meshes, dimension 0."
  },
  {
   "property": "C69",
   "status": "partial",
   "theorems": [
    "C69_neighbours",
    "C69_neighbours_arrays",
    "C69_from_nodes",
    "C69_skin",
    "C69_boundary",
    "C69_boundary_closed_refuted",
    "C69_boundary_nodes",
    "C69_boundary_cells",
    "C69_boundary_middle_refuted"
   ],
   "note": "On meshes whose sons can be put in a mesh (C68_sons says when). Refuted: buildBoundaryMesh of a closed surface reads the first element of an empty vector. In buildBoundaryMesh the nodes are those of the mesh (keepCoords = true). The boundary of a line of quadratic segments contains the middle nodes: refuted for 'ends only'."
  },
  {
   "property": "C70",
   "status": "partial",
   "theorems": [
    "C70_cells_of_type",
    "C70_number_of_type",
    "C70_kept_by_type",
    "C70_consecutive",
    "C70_consecutive_in_order",
    "C70_consecutive_for_med",
    "C70_levels",
    "C70_sorting_array",
    "C70_sorting_unknown_type",
    "C70_sorted_for_med",
    "C70_med_knows_types",
    "C70_rearranged",
    "C70_rearranged_endless",
    "C70_rearranged_refuted",
    "C70_split_by_type"
   ],
   "note": "proved for every mesh, except that rearrange2ConsecutiveCellTypes ends only when all the types are met before a type comes back after another one: for the sequence triangle, quadrangle, triangle, polygon it loops for ever (C70_rearranged_endless, C70_rearranged_refuted)"
  },
  {
   "property": "C71",
   "status": "partial",
   "theorems": [
    "C71_distribution",
    "C71_no_distribution",
    "C71_rank_in_type",
    "C71_specified_cells",
    "C71_specified_cells_refused",
    "C71_slots",
    "C71_slots_refused",
    "C71_profile_split",
    "C71_profile_refused",
    "C71_code",
    "C71_profile_back",
    "C71_code_shape_refused",
    "C71_code_types_refused",
    "C71_code_order_refused",
    "C71_code_profile_refused",
    "C71_code_numbers_refuted",
    "C71_code_order_refuted"
   ],
   "note": "proved; refuted for codes whose numbers of cells are wrong (C71_code_numbers_refuted) and for codes with a profile whose types are in another order than in the mesh (C71_code_order_refuted): nothing checks them"
  },
  {
   "property": "C72",
   "status": "partial",
   "theorems": [
    "C72_spread",
    "C72_spread_refused",
    "C72_contiguous",
    "C72_negative_ignored_refuted",
    "C72_partition",
    "C72_partition_both_ways",
    "C72_partition_refused",
    "C72_mesh",
    "C72_mesh_order"
   ],
   "note": "proved; refuted for negative neighbours (C72_negative_ignored_refuted), which the documentation says are ignored"
  },
  {
   "property": "C73",
   "status": "partial",
   "theorems": [
    "C73_line",
    "C73_surface",
    "C73_volume",
    "C73_quadratic_refuted",
    "C73_enlarged"
   ],
   "note": "proved for edges of two nodes and for the enlarged neighbours of any mesh; refuted for quadratic meshes (C73_quadratic_refuted)"
  },
  {
   "property": "C74",
   "status": "proved",
   "theorems": [
    "C74_merged_meshes",
    "C74_merge_refused",
    "C74_merge_null",
    "C74_same_coordinates",
    "C74_same_coordinates_few",
    "C74_same_coordinates_refused",
    "C74_merged_nodes",
    "C74_merged_nodes_no_coordinates",
    "C74_merged_nodes_refused",
    "C74_points",
    "C74_points_refused"
   ],
   "note": "proved, with the cases refused"
  },
  {
   "property": "C75",
   "status": "partial",
   "theorems": [
    "C75_aggregated",
    "C75_aggregate_refused",
    "C75_aggregate_undefined",
    "C75_aggregate_nothing",
    "C75_ids_in_ms_refuted"
   ],
   "note": "proved for the ranks among the meshes that are there; refuted for the ranks in ms when it holds null pointers (C75_ids_in_ms_refuted)"
  },
  {
   "property": "C76",
   "status": "partial",
   "theorems": [
    "C76_history",
    "C76_consistent",
    "C76_one_call",
    "C76_negative_refuted",
    "C76_zip",
    "C76_of_cell",
    "C76_ids_of_type",
    "C76_id_of_type",
    "C76_cells_having",
    "C76_no_orphan",
    "C76_replace",
    "C76_resize",
    "C76_equal",
    "C76_aggregate",
    "C76_points_refuted"
   ],
   "note": "proved, except: a negative cell id is not refused (C76_negative_refuted), localizations on points cannot be compared nor aggregated (C76_points_refuted)"
  },
  {
   "property": "C77",
   "status": "proved",
   "theorems": [
    "C77_tuples",
    "C77_tuples_throw",
    "C77_offsets",
    "C77_getIJK",
    "C77_coherency",
    "C77_expected",
    "C77_expected_gauss",
    "C77_expected_shape"
   ],
   "note": "proved"
  },
  {
   "property": "C78",
   "status": "partial",
   "theorems": [
    "C78_renumberCells",
    "C78_check",
    "C78_check_throw",
    "C78_nodes",
    "C78_empty_refuted"
   ],
   "note": "proved, except on a mesh without cells (C78_empty_refuted)"
  },
  {
   "property": "C79",
   "status": "partial",
   "theorems": [
    "C79_part",
    "C79_part_throw",
    "C79_part_nodes",
    "C79_part_nodes_throw",
    "C79_range_partial",
    "C79_range_refuted",
    "C79_range_throw",
    "C79_range_nodes",
    "C79_range_nodes_throw"
   ],
   "note": "proved for ids; ranges: proved for values by cells and by nodes, and for the others when the step is not one or the range goes to the last cell; otherwise false (C79_range_refuted)"
  },
  {
   "property": "C80",
   "status": "partial",
   "theorems": [
    "C80_old_to_new",
    "C80_new_to_old",
    "C80_renumberNodes",
    "C80_others",
    "C80_no_node_refuted"
   ],
   "note": "proved for arrays without a tuple made only of the mark DBL_MAX and in-range ids, except on a mesh without nodes (C80_no_node_refuted)"
  },
  {
   "property": "C81",
   "status": "partial",
   "theorems": [
    "C81_getGroupsArr",
    "C81_refused",
    "C81_no_field_refuted",
    "C81_groupsOnLevel"
   ],
   "note": "proved, except that a level of cells without family field uses a null pointer (C81_no_field_refuted)"
  },
  {
   "property": "C82",
   "status": "proved",
   "theorems": [
    "C82_addGroup",
    "C82_bad_array",
    "C82_history"
   ],
   "note": "proved"
  },
  {
   "property": "C83",
   "status": "partial",
   "theorems": [
    "C83_max_id_refuted",
    "C83_two_levels_refuted"
   ],
   "note": "refuted by two histories; proved on the histories of C82"
  },
  {
   "property": "C84",
   "status": "partial",
   "theorems": [
    "C84_removeGroup",
    "C84_removeGroupAtLevel",
    "C84_changeGroupName",
    "C84_changeFamilyName_partial",
    "C84_removeFamily_partial",
    "C84_twice_refuted",
    "C84_changeFamilyId",
    "C84_createGroupOnAll",
    "C84_createGroupOnAll_refused"
   ],
   "note": "proved, with the hypothesis that no family is listed twice in a group for changeFamilyName and removeFamily (partial); false without it (C84_twice_refuted)"
  },
  {
   "property": "C85",
   "status": "proved",
   "theorems": [
    "C85_removeOrphanFamilies",
    "C85_removeFamiliesReferedByNoGroups",
    "C85_rearrangeFamilies"
   ],
   "note": "proved; rearrangeFamilies may throw only if a group holds the family of id 0"
  },
  {
   "property": "C86",
   "status": "partial",
   "theorems": [
    "C86_zipFamilies",
    "C86_zipFamilies_throw",
    "C86_renamed_refuted",
    "C86_addGroup_refuted"
   ],
   "note": "Proved for valid meshes with different ids. Refuted: merged families are listed twice in their groups, so that renaming such a family makes its groups unreadable, and they may live on two levels, so that a later addGroup on one level changes a group on the other."
  },
  {
   "property": "C87",
   "status": "partial",
   "theorems": [
    "C87_normalizeFamIdsMEDFile",
    "C87_normalizeFamIdsTrio",
    "C87_trio_nodes_refuted",
    "C87_no_family",
    "C87_ensure_refuted",
    "C87_two_levels_refuted",
    "C87_keepFamIdsOnlyOnLevs_refuted"
   ],
   "note": "Both numberings are proved for meshes whose grouped families are each used by an entity of one level. Refuted: ensureDifferentFamIdsPerLevel, which both call to obtain this, never changes anything; with a family on two levels entities are lost; normalizeFamIdsTrio gives all nodes to each group of nodes; keepFamIdsOnlyOnLevs can add entities to a group."
  },
  {
   "property": "C88",
   "status": "partial",
   "theorems": [
    "C88_setGroupsAtLevel",
    "C88_claimed_refuted",
    "C88_cleared_refuted",
    "C88_assignFamilyNameWithGroupName"
   ],
   "note": "setGroupsAtLevel is proved for coherent meshes in which no family was renamed to a name Family_<id> above all ids; without this it is refuted. Also refuted: the documented clearing of earlier groups, and the creation of a group given without entity."
  },
  {
   "property": "C89",
   "status": "proved",
   "theorems": [
    "C89_each_pair_once",
    "C89_algorithm_refused",
    "C89_fields_to_send"
   ],
   "note": "Fully proved, for fewer than 2^30 processes (loads are compared with INT_MAX). The boxes and the choice of the box of a process are not modelled: the relation is any relation, the same on all processes as the boxes are gathered by an all-to-all."
  },
  {
   "property": "C90",
   "status": "proved",
   "theorems": [
    "C90_no_deadlock",
    "C90_ends",
    "C90_received_as_expected",
    "C90_received"
   ],
   "note": "Fully proved in a model of blocking point to point messages with tags (a receive takes the first waiting message of its sender with its tag). Contents of messages are abstract: which mesh, which part."
  },
  {
   "property": "C91",
   "status": "partial",
   "theorems": [
    "C91_transfer",
    "C91_sizes_refused",
    "C91_few_processes_refuted",
    "C91_order_refuted"
   ],
   "note": "Proved when the ranks of each group are increasing and the world has at least four processes; refuted otherwise: a trace prints four entries of arrays of the size of the world, and a broadcast topology loses the order of the ranks of its group, so values go to wrong elements. MPI is modelled by its effect (broadcast, all-to-all)."
  },
  {
   "property": "C92",
   "status": "proved",
   "theorems": [
    "C92_redistribute"
   ],
   "note": "MPI is modelled by its effect. Ids outside of [0, nb) are dropped without an error. The int sizes (std::accumulate from int 0, ToIntArray) are not modelled."
  },
  {
   "property": "C93",
   "status": "proved",
   "theorems": [
    "C93_complement"
   ],
   "note": "The result of the other processes (empty) is not modelled."
  },
  {
   "property": "C94",
   "status": "proved",
   "theorems": [
    "C94_cell_field",
    "C94_sizes_refused"
   ],
   "note": "A tuple of the field is one element of the model. A process that throws leaves the others waiting in the collective call."
  },
  {
   "property": "C95",
   "status": "partial",
   "theorems": [
    "C95_value",
    "C95_brackets",
    "C95_sign_power_refuted",
    "C95_power_power_refuted",
    "C95_point_refuted",
    "C95_many_numbers_refuted",
    "C95_sign_function_refuted",
    "C95_nested_refuted",
    "C95_comparison_refuted",
    "C95_two_signs_refuted",
    "C95_list_refuted"
   ],
   "note": "Proved for the expressions of the grammar ExSpec.wf (at most one sign before a number, a name or a bracket; functions of several arguments not between brackets; comparisons not inside an operand; at most ten numbers), for any type of values. Refuted outside: a number beginning with a point gets the value of the first number of the text, more than ten numbers may be refused, a sign before a function, nested functions of two arguments, comparisons inside an operand are refused, a list between brackets makes the evaluators differ or read below the stack; a sign binds more than a power and powers go from left to right. The operations themselves (double, units, machine code) are parameters and do not throw in the model."
  },
  {
   "property": "C96",
   "status": "partial",
   "theorems": [
    "C96_number_of_cells",
    "C96_cell_static",
    "C96_cell_dynamic",
    "C96_negative_id_refuted",
    "C96_consistency_static",
    "C96_consistency_dynamic",
    "C96_consistency_unpacked",
    "C96_consistency_sound",
    "C96_nodes_in_use_static",
    "C96_nodes_in_use_dynamic",
    "C96_fetched_static",
    "C96_fetched_dynamic_partial",
    "C96_fetched_unpacked_refuted",
    "C96_renumber_static",
    "C96_renumber_dynamic",
    "C96_renumber_unpacked",
    "C96_lying_on_partial",
    "C96_lying_on_empty_refuted",
    "C96_reverse_static",
    "C96_reverse_dynamic",
    "C96_effective_number",
    "C96_number_of_nodes",
    "C96_number_of_faces"
   ],
   "note": "Refuted: negative cell ids are not refused by getNodeIdsOfCell (read before the array); computeFetchedNodeIds of the dynamic class goes over the whole connectivity and reports nodes of no cell when the connectivity has unused parts; fillCellIdsToKeepFromNodeIds throws on a mesh without cells."
  },
  {
   "property": "C97",
   "status": "partial",
   "theorems": [
    "C97_from_static",
    "C97_from_dynamic",
    "C97_from_any",
    "C97_to_static",
    "C97_to_dynamic",
    "C97_to_dynamic_refuted",
    "C97_round_static",
    "C97_round_dynamic",
    "C97_aggregate"
   ],
   "note": "Refuted: buildUnstructured of the dynamic class allocates the whole connectivity and leaves the end unwritten when the connectivity has values that belong to no cell. A mesh without cells loses its type: it cannot be converted back. Equality of the coordinates is a parameter of the aggregation."
  },
  {
   "property": "C98",
   "status": "partial",
   "theorems": [
    "C98_part_static",
    "C98_part_dynamic",
    "C98_slice_static",
    "C98_slice_dynamic",
    "C98_renumber_static",
    "C98_renumber_dynamic_partial",
    "C98_renumber_unpacked_refuted",
    "C98_renumber_check_static",
    "C98_renumber_check_dynamic_partial",
    "C98_insert_static",
    "C98_insert_dynamic",
    "C98_allocate",
    "C98_packed",
    "C98_merge_static",
    "C98_merge_dynamic",
    "C98_merge_refused_static",
    "C98_merge_refused_dynamic",
    "C98_polygon_partial",
    "C98_polygon_open",
    "C98_polygon_refuted"
   ],
   "note": "Partial: renumbering of a mesh of a dynamic type is proved for a packed connectivity; for another one the new connectivity ends with values never written (refuted). The polygon from its parts is proved when the parts are those of one line and start at different nodes; parts that are not those of a single polygon are not always refused (refuted)."
  },
  {
   "property": "C99",
   "status": "partial",
   "theorems": [
    "C99_build",
    "C99_build_forward",
    "C99_null_refuted",
    "C99_single_refuted",
    "C99_ids",
    "C99_right",
    "C99_left",
    "C99_refusals",
    "C99_long",
    "C99_too_many_refuted",
    "C99_hot",
    "C99_hot_order_refuted",
    "C99_equal",
    "C99_equal_self",
    "C99_assign_refuted",
    "C99_serialization",
    "C99_overlap_refuted",
    "C99_over_time",
    "C99_over_time_zone_refuted",
    "C99_included",
    "C99_before",
    "C99_after"
   ],
   "note": "Partial: a definition of a single field has no tolerance (refuted); that at most two slices hold a time, and that the remarkable times ascend, is proved when slices that are not neighbours are two tolerances apart (which holds when each slice lasts four tolerances) and refuted without it. Times are rational numbers."
  },
  {
   "property": "C100",
   "status": "partial",
   "theorems": [
    "C100_build",
    "C100_field_at",
    "C100_time_resolution",
    "C100_different_meshes",
    "C100_different_arrays",
    "C100_meshes",
    "C100_arrays_partial",
    "C100_deep_copy_partial",
    "C100_deep_copy_no_mesh",
    "C100_deep_copy_unit_refuted",
    "C100_is_equal_partial",
    "C100_is_equal_arrays_refuted",
    "C100_round_trip_partial",
    "C100_write_null_refuted"
   ],
   "note": "Partial: the copy loses the time unit and shares the spatial discretization (refuted); the comparison does not look at the sharing of arrays (refuted); asking for the arrays of a set with a null field, or writing it, dereferences the null pointer. The comparison of two fields and the check of a field are parameters."
  },
  {
   "property": "C101",
   "status": "partial",
   "theorems": [
    "C101_order",
    "C101_connected",
    "C101_branch",
    "C101_dimension",
    "C101_middle_refuted"
   ],
   "note": "Proved for all meshes of segments where the end of a cell is in the middle of none. Without this, no node in three cells is not enough (C101_middle_refuted): the values go past the end of the array."
  },
  {
   "property": "C102",
   "status": "partial",
   "theorems": [
    "C102_inverse",
    "C102_only_inverse",
    "C102_singular_refuted",
    "C102_empty_refuted",
    "C102_product",
    "C102_product_sizes"
   ],
   "note": "Proved over exact rational numbers, not floating-point ones: no statement on rounding. The refusal of a matrix without inverse is refuted for all of them (C102_singular_refuted): no exception, a division by zero."
  },
  {
   "property": "C103",
   "status": "partial",
   "theorems": [
    "C103_new",
    "C103_copies",
    "C103_rebuild",
    "C103_reshape",
    "C103_reshape_bad",
    "C103_transpose",
    "C103_transpose_empty_refuted",
    "C103_shared_refuted",
    "C103_add",
    "C103_sub",
    "C103_add_equal",
    "C103_sub_equal",
    "C103_sizes",
    "C103_multiply",
    "C103_multiply_sizes",
    "C103_multiply_array",
    "C103_vector",
    "C103_history",
    "C103_resized_refuted"
   ],
   "note": "Proved over exact rational numbers. Refuted: a matrix without column cannot be transposed (C103_transpose_empty_refuted), a matrix that shares its array with a transposed one has its values moved (C103_shared_refuted), an array shortened by its user is read past its end (C103_resized_refuted). Not modelled: the constructor with sizes only, isEqual, null matrices."
  },
  {
   "property": "C104",
   "status": "partial",
   "theorems": [
    "C104_plane",
    "C104_mesh_plane",
    "C104_flat_refuted",
    "C104_solid_partial",
    "C104_hexa_refuted",
    "C104_no_face_refuted",
    "C104_collapse",
    "C104_polyhedron_back",
    "C104_mesh_partial",
    "C104_hexa_overflow_refuted",
    "C104_tetra_overflow_refuted",
    "C104_unpolyze"
   ],
   "note": "Cells of dimension 2, linear and quadratic, are proved for all lists of nodes and all meshes. Solids are proved for every way of repeating nodes, except hexahedra with a face folded on a diagonal, for which the claim is false (C104_hexa_refuted). A mesh is proved when no cell becomes longer (C104_mesh_partial); otherwise the code writes out of its array (C104_hexa_overflow_refuted, C104_tetra_overflow_refuted). A solid that keeps no face steps out of its buffer (C104_no_face_refuted). A triangle with two different nodes is removed as flat, against the documentation (C104_flat_refuted). Missing: degenerated HEXGP12 and polyhedra with other faces."
  },
  {
   "property": "C105",
   "status": "partial",
   "theorems": [
    "C105_simplexize",
    "C105_simplexize_bad",
    "C105_segments",
    "C105_segments_bad",
    "C105_linear",
    "C105_poly",
    "C105_poly_bad",
    "C105_poly_dimension",
    "C105_one_face_refuted",
    "C105_poly_all",
    "C105_round_trip"
   ],
   "note": "The five methods are proved for all meshes. A polyhedron with one face makes convertToPolyTypes write out of its buffer (C105_one_face_refuted): conversion to polyhedra is proved for linear solids and for polyhedra with two faces or more. Missing: quadratic solids in convertToPolyTypes, and the policies of simplexize that change the coordinates."
  },
  {
   "property": "C106",
   "status": "partial",
   "theorems": [
    "C106_invert",
    "C106_change",
    "C106_change_bad",
    "C106_quadratic",
    "C106_invert_seg3_refuted",
    "C106_change_centre_refuted"
   ],
   "note": "The four methods are proved for all meshes of the cells they take. Excluded from the inversion of all cells: SEG3, whose inverter exchanges an end and the middle (C106_invert_seg3_refuted), and the types with no inverter; from changeOrientationOfCells: cells with a node at their centre, which write out of the cell (C106_change_centre_refuted)."
  },
  {
   "property": "C107",
   "status": "proved",
   "theorems": [
    "C107_static",
    "C107_static_bad",
    "C107_dynamic",
    "C107_dynamic_bad",
    "C107_mixed",
    "C107_sorted",
    "C107_part",
    "C107_nodes"
   ],
   "note": "The five methods are proved for all meshes. The two that take ids without a check (getTypesOfPart, getNumberOfNodesInCell) are proved for ids in the mesh."
  },
  {
   "property": "C108",
   "status": "partial",
   "theorems": [
    "C108_replace",
    "C108_bad",
    "C108_slice",
    "C108_slice_bad",
    "C108_twice_refuted"
   ],
   "note": "Proved for ids given once. With an id given twice and cells of another size the new connectivity ends with a value never written (C108_twice_refuted). The comparison of the pointers on the coordinates is an argument of the model."
  }
 ]
}