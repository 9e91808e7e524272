{
 "C11": {
  "note": "Equivalence proved for slices that stay in the array and for invalid triples. The claim that a slice leaving the array raises an exception is false of the code (no bound check, line 1705): C11_slice_safe_refuted. subArray with end<bg is not rejected: C11_subArray_safe_refuted."
 },
 "C17": {
  "note": "Proved for sorted/any arrays; buildUniqueNotSorted needs a non empty array whose value range fits the integer type. On an empty array the code computes max-min with max=-big,min=big: signed overflow (C17_buildUniqueNotSorted_empty_refuted)."
 },
 "C21": {
  "note": "Proved for strictly increasing offsets and ids when the list does not stop strictly inside a range it fills from its beginning. Otherwise the code reads *tupPtr at the end of the list (line 6839): C21_rangesInList_safe_refuted. Not covered: repeated ids, empty ranges (the code treats them inconsistently)."
 },
 "C24": {
  "note": "For a null offset the claim is proved. For a positive offset the code keeps only the tail of each pack from the offset on (the values before the offset are lost): C24_remove_offset_refuted; C24_remove_partial states exactly what it does for every offset."
 },
 "C25": {
  "note": "Proved for every list of groups and every n up to 2^31-1 elements. Line 9454 counts the elements with an int: a larger n overflows it (C25_counter_refuted)."
 },
 "C27": {
  "note": "changeSurjectiveFormat is proved in full. ConvertIndexArrayToO2N is proved for disjoint non empty packs beginning with their smallest element, which is in range; each of these conditions is needed: C27_unsorted_pack_refuted, C27_first_element_refuted, C27_empty_pack_refuted."
 },
 "C28": {
  "note": "Every pair is inside a group and groups only hold linked ids; if the groups returned are disjoint they are the connected components. They need not be disjoint: C28_disjoint_refuted."
 },
 "C29": {
  "note": "Proved as stated, with the exact throwing conditions. C29_trail_missed shows that the greedy search may throw although a trail through all pairs exists; C29_sortToHaveConsecutivePairs_throw shows it cannot happen when no id is in more than two pairs."
 },
 "C32": {
  "note": "Proved with std::copy on overlapping ranges behaving as a move of the block, which is what the standard libraries do for arithmetic types. The C++ standard leaves it undefined when the destination is inside the source: C32_strict_copy_undefined gives a rotation (2 out of 3 tuples) where the code does it; C32_circularPermutation_strict shows that rotations by at most half of the tuples do not."
 },
 "C33": {
  "note": "Proved for pushBack, pushBackValsSilent, popBack, reserve, pack, insertAtTheEnd and writeOnPlace at an offset inside the block. writeOnPlace beyond the current size writes outside the block: C33_writeOnPlace_refuted. Calls on arrays with at least one component."
 },
 "C35": {
  "note": "Proved for every program that respects ownership, single threaded (C35_lifetime, C35_pointers) and for every schedule of threads on one object (C35_threads). Two natural uses are excluded because they are wrong: x = x.retn() leaks (C35_assign_same_pointer_refuted) and x = x->member is a use after free (C35_assign_from_member_refuted)."
 },
 "C36": {
  "note": "Proved for aggregates of leaf objects. Aggregates of aggregates (a field on a mesh) do not refresh the inner aggregate: C36_nested_refuted."
 },
 "C37": {
  "note": "Histories of pushBackPack/replacePack/deletePack and of the simple-pack calls refine operations on lists of lists, plus the bulk functions. Not true of the code, and proved as refutations: the checks accept one past the last pack (undefined behaviour), an empty pack cannot be deleted, a relative pack id outside the super pack is not refused, replaceSimplePacks sorts packs it was not asked to replace; the std::copy calls that move to the right overlap."
 },
 "C38": {
  "note": "Round trip proved for every connectivity in the polyhedron format; cells without any face are the exception (C38_no_face_refuted)."
 },
 "C39": {
  "note": "Proved for parts denoting an id sequence. Not true of the code: decreasing slices cannot be counted or added together; composition of a list with a slice of step 1 is not bounds-checked; composition of a slice with a part reads out of bounds instead of throwing."
 },
 "C40": {
  "note": "The bijections are proved for 1 to 3 axes with at least two nodes and fewer than 2^31 cells (nodes). Refuted outside: the products go through std::accumulate with an int initial value, so above 2^31 cells ids are wrong and no cell can be located (C40_large_refuted); with a flat axis getNumberOfCells is positive but every getLocationFromCellId throws (C40_flat_refuted)."
 },
 "C41": {
  "note": "All claims proved for boxes inside the mesh. Refuted for other arguments: IsPartStructured answers true for negative ids and divides by zero on an axis without cell; SwitchOnIdsFrom and ExtractFieldOfBoolFrom do not check that the box lies in the mesh and access memory out of the vector."
 },
 "C42": {
  "note": "All claims proved; AreRangesIntersect is wrong when one of the boxes is empty and strictly inside the other (C42_areIntersect_empty_refuted)."
 },
 "C43": {
  "note": "Build1GTNodalConnectivity and getReverseNodalConnectivity in dimensions 1-3, flat axes included, are transposes of one another; getNodeIdsOfCell for grids without flat axis. Refuted: no node (unallocated output), flat first axis in getNodeIdsOfCell, corner order, unchecked cell id, single node."
 },
 "C44": {
  "note": "The four transfer functions of MEDCouplingIMesh with and without ghost cells, dimensions 1 to 3, any addition on the values; the sum of a cell is taken in the order of the fine tuples, so it also describes floating point. Conservation is stated for exact addition. Refuted: SpreadCoarseToFine in dimension 3 uses the third factor for the second one (out of bounds, or cells left unwritten), divides by zero on an empty patch; no function checks that the patch lies in the coarse grid."
 },
 "C45": {
  "note": "BlockTopology built from a grid, from a number of elements and by composition with a component topology; both directions of the numbering, local sizes, bounds. Refuted: localToGlobal takes the local size of the calling rank, globalToLocal accepts any id, getLocalArrayMinMax reads out of its arrays when components are distributed, composition of a group-less component topology yields a topology without group."
 },
 "C46": {
  "note": "Arrays, part definitions and block topologies: round trips proved. Refuted: block topologies of groups whose ranks are not sorted; an array that is not allocated sent to a receiver that already holds values (integers: old values kept; doubles: strings read out of bounds)."
 },
 "C55": {
  "note": "Proved for every mesh of the seven classes with what is rebuilt stated exactly; lost or undefined cases are refutations: names of axes of Cartesian meshes, names of the connectivity arrays of unstructured meshes, time of extruded meshes, meshes without coordinates, coordinates without component, connectivity and index with different component counts."
 },
 "C48": {
  "note": "The eight writers are modelled on the flat memory with the position of every write. When the source is another array: success exactly on the announced conditions, exact values (last write wins with repeated ids), rest untouched, else an exception with at most the tuples before the first invalid id written. A null source throws. The array itself as source has the outcome of a copy (memory safe), but not its values (refuted)."
 },
 "C49": {
  "note": "setContigPartOfSelectedValues, its slice variant and setPartOfValuesAdv. Partial: a non negative start (and slice begin) is assumed, since the code checks no lower bound; the unrestricted claim is refuted."
 },
 "C50": {
  "note": "General theorem for any value type and any operation defined on the operands (division by zero is excluded, as documented), and the instances on integers. modulusEqual is partial: its documented one component case always throws, and one tuple of another width is read out of bounds or accepted (refuted). Overflow is not modelled."
 },
 "C56": {
  "note": "Same model of std::transform as C50, to a new array. Add/Multiply need a commutative operation. Their documented one tuple case throws for an empty array (refuted). Overflow is not modelled; component names are not modelled here."
 },
 "C57": {
  "note": "Doubles are rationals; the crude matrix is an input (the geometric intersectors are not modelled). Proved for every history of calls and every nature, with the conservation and maximum consequences. Missing and refuted: removal of coefficients between two transfers (stale divisors), IntensiveConservation with a mesh of dimension -1, a target whose number of entities is not that prepared (out-of-bounds write), a transfer after a refused matrix (array without values), a transfer without nature (throws but has attached an array)."
 },
 "C58": {
  "note": "Doubles are rationals; rows are sorted association lists for std::map."
 },
 "C59": {
  "note": "Doubles are rationals without infinity. Refuted: the documentation of the class says that a positive tolerance enlarges the searched box; getIntersectingElems tightens it."
 },
 "C60": {
  "note": "Doubles are rationals. Refuted: a tuple is in one group only (coincidence within a tolerance is not transitive; with a limit the groups overlap even for equal tuples); the euclidian distance of the documentation of computeTupleIdsNearTuples is the infinite norm. getDifferentValues is proved for limit <= 0 and transitive coincidence."
 },
 "C61": {
  "note": "Doubles are rationals; sqrt is any function at least as great as the square root, the cubic root any function; squared distances below DBL_MAX. Refuted: without tuple in this the search does not end; with four components or more the exception is not reached, the memory behind bounds[6] is written."
 },
 "C62": {
  "note": "The table of the models is generated from the constructor of CellModel (tools/gen_celltable.py). A cell is the list of its nodes; faces are compared as cycles of edges. Refuted: the status of a quadratic 2D cell with itself is false; the inverter of SEG3 exchanges an end and the middle; changeOrientationOf2D of TRI7 and QUAD9 writes out of the array; changeOrientationOf1D of a polyline does not give the reversed line; HEXA27 has 4294967295 edges, none of which can be read; a polyline announces sons that cannot be asked for."
 },
 "C63": {
  "note": "The mesh holds its coordinates (rationals), connectivity, index and types. Refuted: checkGeomConsistency rejects a valid polyhedron of three faces or more (the separators count as repeated nodes); an empty index passes checkConsistency with -1 cells; checkConsistency reads out of the connectivity when the index leads there."
 },
 "C64": {
  "note": "mergeNodes under transitivity of nearness on the nodes. Refuted: without it a node may be moved by more than the precision; a node listed twice in duplicateNodes is replaced by its last copy, not the first as documented; removing a node in use by a negative number in renumberNodes puts a separator in its cells."
 },
 "C65": {
  "note": "Node ids of the cells are within the coordinates for the reverse connectivity (otherwise it writes out of its arrays)."
 },
 "C66": {
  "note": "Closed for meshes whose connectivity holds cells."
 },
 "C67": {
  "note": "Proved for policies 0 to 3 on cells that each have a node and no negative node but the separator; policy 1 on known types of a dimension other than 3 (it throws in dimension 3). Equality of policy 0 is that of the list of nodes: the documented comparison of types is not made (refuted). Refuted: policy 1 on quadratic cells, groups of one polyhedron, policy 7 (out of bounds, wrong groups, inclusion of a mesh in itself), policy 9 (overlapping groups), id of a cell not found when the mesh has duplicates, mesh without cells in areCellsIncludedIn. Policies 7, 8, 9 have no positive theorem."
 },
 "C68": {
  "note": "Sons with the same set of nodes (and as many) are one son, as in the code. Signs: linear sons, of dimension 1 or 2, where those on the same nodes are one turned, or the other way (always so with three nodes at most; proved). Polylines have no sons (the code throws). HEXA27 has no table of edges. Refuted: explodeMeshIntoMicroEdges on 3D meshes, buildDescendingConnectivity2 on 1D meshes, dimension 0."
 },
 "C69": {
  "note": "On meshes whose sons can be put in a mesh (C68_sons says when). Refuted: buildBoundaryMesh of a closed surface reads the first element of an empty vector. In buildBoundaryMesh the nodes are those of the mesh (keepCoords = true). The boundary of a line of quadratic segments contains the middle nodes: refuted for 'ends only'."
 },
 "C70": {
  "note": "proved for every mesh, except that rearrange2ConsecutiveCellTypes ends only when all the types are met before a type comes back after another one: for the sequence triangle, quadrangle, triangle, polygon it loops for ever (C70_rearranged_endless, C70_rearranged_refuted)"
 },
 "C71": {
  "note": "proved; refuted for codes whose numbers of cells are wrong (C71_code_numbers_refuted) and for codes with a profile whose types are in another order than in the mesh (C71_code_order_refuted): nothing checks them"
 },
 "C72": {
  "note": "proved; refuted for negative neighbours (C72_negative_ignored_refuted), which the documentation says are ignored"
 },
 "C73": {
  "note": "proved for edges of two nodes and for the enlarged neighbours of any mesh; refuted for quadratic meshes (C73_quadratic_refuted)"
 },
 "C74": {
  "note": "proved, with the cases refused"
 },
 "C75": {
  "note": "proved for the ranks among the meshes that are there; refuted for the ranks in ms when it holds null pointers (C75_ids_in_ms_refuted)"
 },
 "C76": {
  "note": "proved, except: a negative cell id is not refused (C76_negative_refuted), localizations on points cannot be compared nor aggregated (C76_points_refuted)"
 },
 "C77": {
  "note": "proved"
 },
 "C78": {
  "note": "proved, except on a mesh without cells (C78_empty_refuted)"
 },
 "C79": {
  "note": "proved for ids; ranges: proved for values by cells and by nodes, and for the others when the step is not one or the range goes to the last cell; otherwise false (C79_range_refuted)"
 },
 "C80": {
  "note": "proved for arrays without a tuple made only of the mark DBL_MAX and in-range ids, except on a mesh without nodes (C80_no_node_refuted)"
 },
 "C81": {
  "note": "proved, except that a level of cells without family field uses a null pointer (C81_no_field_refuted)"
 },
 "C82": {
  "note": "proved"
 },
 "C83": {
  "note": "refuted by two histories; proved on the histories of C82"
 },
 "C84": {
  "note": "proved, with the hypothesis that no family is listed twice in a group for changeFamilyName and removeFamily (partial); false without it (C84_twice_refuted)"
 },
 "C85": {
  "note": "proved; rearrangeFamilies may throw only if a group holds the family of id 0"
 },
 "C86": {
  "note": "Proved for valid meshes with different ids. Refuted: merged families are listed twice in their groups, so that renaming such a family makes its groups unreadable, and they may live on two levels, so that a later addGroup on one level changes a group on the other."
 },
 "C87": {
  "note": "Both numberings are proved for meshes whose grouped families are each used by an entity of one level. Refuted: ensureDifferentFamIdsPerLevel, which both call to obtain this, never changes anything; with a family on two levels entities are lost; normalizeFamIdsTrio gives all nodes to each group of nodes; keepFamIdsOnlyOnLevs can add entities to a group."
 },
 "C88": {
  "note": "setGroupsAtLevel is proved for coherent meshes in which no family was renamed to a name Family_<id> above all ids; without this it is refuted. Also refuted: the documented clearing of earlier groups, and the creation of a group given without entity."
 },
 "C89": {
  "note": "Fully proved, for fewer than 2^30 processes (loads are compared with INT_MAX). The boxes and the choice of the box of a process are not modelled: the relation is any relation, the same on all processes as the boxes are gathered by an all-to-all."
 },
 "C90": {
  "note": "Fully proved in a model of blocking point to point messages with tags (a receive takes the first waiting message of its sender with its tag). Contents of messages are abstract: which mesh, which part."
 },
 "C91": {
  "note": "Proved when the ranks of each group are increasing and the world has at least four processes; refuted otherwise: a trace prints four entries of arrays of the size of the world, and a broadcast topology loses the order of the ranks of its group, so values go to wrong elements. MPI is modelled by its effect (broadcast, all-to-all)."
 },
 "C92": {
  "note": "MPI is modelled by its effect. Ids outside of [0, nb) are dropped without an error. The int sizes (std::accumulate from int 0, ToIntArray) are not modelled."
 },
 "C93": {
  "note": "The result of the other processes (empty) is not modelled."
 },
 "C94": {
  "note": "A tuple of the field is one element of the model. A process that throws leaves the others waiting in the collective call."
 },
 "C95": {
  "note": "Proved for the expressions of the grammar ExSpec.wf (at most one sign before a number, a name or a bracket; functions of several arguments not between brackets; comparisons not inside an operand; at most ten numbers), for any type of values. Refuted outside: a number beginning with a point gets the value of the first number of the text, more than ten numbers may be refused, a sign before a function, nested functions of two arguments, comparisons inside an operand are refused, a list between brackets makes the evaluators differ or read below the stack; a sign binds more than a power and powers go from left to right. The operations themselves (double, units, machine code) are parameters and do not throw in the model."
 },
 "C96": {
  "note": "Refuted: negative cell ids are not refused by getNodeIdsOfCell (read before the array); computeFetchedNodeIds of the dynamic class goes over the whole connectivity and reports nodes of no cell when the connectivity has unused parts; fillCellIdsToKeepFromNodeIds throws on a mesh without cells."
 },
 "C97": {
  "note": "Refuted: buildUnstructured of the dynamic class allocates the whole connectivity and leaves the end unwritten when the connectivity has values that belong to no cell. A mesh without cells loses its type: it cannot be converted back. Equality of the coordinates is a parameter of the aggregation."
 },
 "C98": {
  "note": "Partial: renumbering of a mesh of a dynamic type is proved for a packed connectivity; for another one the new connectivity ends with values never written (refuted). The polygon from its parts is proved when the parts are those of one line and start at different nodes; parts that are not those of a single polygon are not always refused (refuted)."
 },
 "C99": {
  "note": "Partial: a definition of a single field has no tolerance (refuted); that at most two slices hold a time, and that the remarkable times ascend, is proved when slices that are not neighbours are two tolerances apart (which holds when each slice lasts four tolerances) and refuted without it. Times are rational numbers."
 },
 "C100": {
  "note": "Partial: the copy loses the time unit and shares the spatial discretization (refuted); the comparison does not look at the sharing of arrays (refuted); asking for the arrays of a set with a null field, or writing it, dereferences the null pointer. The comparison of two fields and the check of a field are parameters."
 },
 "C101": {
  "note": "Proved for all meshes of segments where the end of a cell is in the middle of none. Without this, no node in three cells is not enough (C101_middle_refuted): the values go past the end of the array."
 },
 "C102": {
  "note": "Proved over exact rational numbers, not floating-point ones: no statement on rounding. The refusal of a matrix without inverse is refuted for all of them (C102_singular_refuted): no exception, a division by zero."
 },
 "C103": {
  "note": "Proved over exact rational numbers. Refuted: a matrix without column cannot be transposed (C103_transpose_empty_refuted), a matrix that shares its array with a transposed one has its values moved (C103_shared_refuted), an array shortened by its user is read past its end (C103_resized_refuted). Not modelled: the constructor with sizes only, isEqual, null matrices."
 },
 "C104": {
  "note": "Cells of dimension 2, linear and quadratic, are proved for all lists of nodes and all meshes. Solids are proved for every way of repeating nodes, except hexahedra with a face folded on a diagonal, for which the claim is false (C104_hexa_refuted). A mesh is proved when no cell becomes longer (C104_mesh_partial); otherwise the code writes out of its array (C104_hexa_overflow_refuted, C104_tetra_overflow_refuted). A solid that keeps no face steps out of its buffer (C104_no_face_refuted). A triangle with two different nodes is removed as flat, against the documentation (C104_flat_refuted). Missing: degenerated HEXGP12 and polyhedra with other faces."
 },
 "C105": {
  "note": "The five methods are proved for all meshes. A polyhedron with one face makes convertToPolyTypes write out of its buffer (C105_one_face_refuted): conversion to polyhedra is proved for linear solids and for polyhedra with two faces or more. Missing: quadratic solids in convertToPolyTypes, and the policies of simplexize that change the coordinates."
 },
 "C106": {
  "note": "The four methods are proved for all meshes of the cells they take. Excluded from the inversion of all cells: SEG3, whose inverter exchanges an end and the middle (C106_invert_seg3_refuted), and the types with no inverter; from changeOrientationOfCells: cells with a node at their centre, which write out of the cell (C106_change_centre_refuted)."
 },
 "C107": {
  "note": "The five methods are proved for all meshes. The two that take ids without a check (getTypesOfPart, getNumberOfNodesInCell) are proved for ids in the mesh."
 },
 "C108": {
  "note": "Proved for ids given once. With an id given twice and cells of another size the new connectivity ends with a value never written (C108_twice_refuted). The comparison of the pointers on the coordinates is an argument of the model."
 }
}