# Formal model of MEDCoupling (SalomePlatform/medcoupling) in Rocq/Coq 8.16.1

## 1. What is modelled and how

The source in /repo is C++; it is read as text only, never compiled or run here.  The model is a set of
total Gallina functions, one per C++ function, in `rocq/theories/*Model.v`.  Each definition carries a comment with the file
and lines it models and the simplifications made.

Conventions (file `Base.v`):

* `res A = Ok a | Throw | UB | Fuel` is the outcome of a C++ call: normal return, C++ exception,
  undefined behaviour (read or write outside of a buffer, read of an indeterminate cell, division by zero, NULL
  dereference), and "loop did not end within the fuel" for the few `while` loops that are not structurally bounded
  (theorems exclude it).
* A raw buffer is a list.  `rd l i`/`wr l i x` (index in Z) give `UB` out of bounds.  A freshly malloc'ed
  output buffer is a list of `option` cells, all `None` (indeterminate); theorems that say "fully initialised"
  prove that the cells are `Some`.
* A `DataArray` is a record (allocated flag, number of components, flat values); names and component strings are
  left out except where a property is about them.
* `mcIdType` is unbounded `Z` except where the property is about overflow (then the wrap is written explicitly).
* C++ `/` and `%` are `Z.quot`/`Z.rem` (truncation) with `UB` on a zero divisor.
* `std::map/std::set` over integers are modelled by sorted association lists or std++ `gmap` with the iteration
  order (ascending keys) written out; `std::sort` by a proved sorting function; other std algorithms
  (`copy`, `find`, `count_if`, `unique`, `transform`, ...) by their specification on lists.
* double/float values: the generic containers are polymorphic in the value type; arithmetic properties are stated over Z or over an
  arbitrary commutative ring (no floating-point rounding is modelled).
* Memory exhaustion (bad_alloc) is not modelled.

Files: `*Model.v` hold only definitions, `*Spec.v` the small specifications, `*Proofs.v` the lemmas, `Prop*.v` only the property
theorems (each closed by `exact`), with `Print Assumptions` and an `Example` showing that the hypotheses are
met by a concrete non-trivial case.

## 2. Trusted base

* Coq 8.16.1 kernel (and coqchk as run by the gate).
* The faithfulness of the hand-written model to the C++ text (cited file/lines).
* The semantics of std:: algorithms and containers as described above.
* Assumptions of every theorem: printed by `Print Assumptions`; see section 5.

## 3. Plan per property

For each property of `properties.jsonl`: what is modelled and how it is proved.  "loop" means the C++ loop is
modelled as a fold with explicit buffer reads/writes and proved by a loop invariant to satisfy a declarative
specification.

| id | model | proof |
|----|-------|-------|
| C01 | GetNumberOfItemGivenBES*, GetPos*, Range (loop) | Z division lemmas; Range = arithmetic progression |
| C02 | GetSlice | concatenation over slice ids = whole range, by induction on ids |
| C03 | isRange with C++ truncated division | iff with Range |
| C04 | renumber*, loops writing tuples into malloc'ed cells | invariant on written cells; permutation facts |
| C05 | same, with the range checks | exact throw condition, no UB for any map |
| C06 | renumberAndReduce | invariant |
| C07 | invertArray* | invariant, injectivity |
| C08 | buildPermutationArr (map), FindPermutation* (sort of pairs) | map semantics, sortedness/permutation uniqueness |
| C09 | CheckAndPreparePermutation, buildPermArrPerLevel | sorting; ranks; counting sort invariant |
| C10 | mySelectByTupleId(Safe) | loop |
| C11 | mySelectByTupleIdSafeSlice, subArray | loop; expected refutation of the safety part (no bound check) |
| C12 | mySelectByTupleRanges with the deepCopy shortcut | loop |
| C13 | findIds*, count | filter characterisation |
| C14 | findIdSequence, findIdFirstEqualTuple, findIdsEqualTuple on std::search | search specification |
| C15 | buildComplement, buildSubstraction(Optimized) with bool vectors / std::set | set characterisation |
| C16 | BuildUnion, BuildIntersection | set characterisation |
| C17 | buildUnique (std::unique), buildUniqueNotSorted (bit vector) | list characterisation |
| C18 | computeOffsets, computeOffsetsFull, deltaShiftIndex | round trip |
| C19 | findRangeIdForEachTuple, findIdInRangeForEachTuple with the cursor | loop |
| C20 | buildExplicitArrByRanges, buildExplicitArrOfSliceOnScaledArr | loop |
| C21 | findIdsRangesInListOfIds | expected refutation (reads past the end) |
| C22 | ExtractFromIndexedArrays(Slice) | refinement to lists of packs |
| C23 | SetPartOfIndexedArrays... | refinement; refutation for repeated ids |
| C24 | RemoveIdsFromIndexedArrays | refinement; refutation for offset>0 |
| C25 | MakePartition with signatures | partition invariant |
| C26 | partitionByDifferentValues, indexOfSameConsecutiveValueGroups | |
| C27 | changeSurjectiveFormat, ConvertIndexArrayToO2N | |
| C28 | fromListOfPairsToIndexArray | expected refutation (merge is incomplete) |
| C29 | PairAggregator, sortToHaveConsecutivePairs, sortEachPairToMakeALinkedList | invariant + termination |
| C30 | splitInBalancedSlices | loop |
| C31 | from/toNoInterlace, rearrange, transpose, explode/Meld | round trips |
| C32 | circularPermutation(PerTuple), reverse | rotation lemmas |
| C33 | MemArray state machine | refinement to lists over all histories |
| C34 | MemArray ownership state machine with an explicit heap | invariant over all histories |
| C35 | MCAuto/RefCountObjectOnly state machine | invariant over all histories |
| C36 | TimeLabel state machine | invariant over all histories |
| C37 | SkyLineArray operations | refinement to lists of packs |
| C38 | BuildFromPolyhedronConn/convertToPolyhedronConn | round trip; refutation for cells without faces |
| C39 | PartDefinition | refinement to id lists; refutation of the bound checks |
| C40 | StructuredMesh id arithmetic, with the `int` accumulator of std::accumulate | bijection; refutation above 2^31 |
| C41 | BuildExplicitIdsFrom, IsPartStructured, SwitchOnIdsFrom, Extract* | |
| C42 | compact format operations, FindMinimalPartOf | |
| C43 | nodal and reverse nodal connectivity of grids | |
| C44 | CondenseFineToCoarse, SpreadCoarseToFine | loop with moving pointers |
| C45 | BlockTopology | mixed radix arithmetic; refutation across ranks |
| C46 | serialization | round trips |
| C47 | Aggregate, AggregateIndexes | |
| C48 | setPartOfValues* | loop |
| C49 | setContigPartOfSelectedValues* | loop; refutation of the lower bound check |
| C50 | somethingEqual, modulusEqual, powEqual | loop; refutation of the shape check of modulusEqual |
| C51 | isIota, isIdentity, monotony, isUniform, isFittingWith | exact characterisation |
| C52 | changeValue, count, checkAllIdsInRange... | loop |
| C53 | findIdForEach, locateComponentId... | loop |
| C54 | keepSelectedComponents, duplicate/repeat, SetArrayIn... | loop |
| C55 | serialization of the six kinds of meshes | round trips; refutations for what is not transmitted |
| C56 | DivSub, MulAdd, Pow, negate, sumPerTuple, apply* | loop |
| C57 | MEDCouplingRemapper: transfer, partialTransfer, reverseTransfer, computeDeno, products (rationals for doubles; the matrix is an input) | invariant over all histories of calls; exchange of sums for the conservations; refutations |
| C58 | MEDCouplingRemapper: setCrudeMatrix, nullified..., ReverseMatrix, convolution for extruded meshes | sets of coefficients |
| C59 | BBTree, BBTreePts: constructors, searches, walk, leaf iterator; computeNbOfInteractionsWith (rationals for doubles) | induction on the tree with the bounds of both sides as invariant |
| C60 | BBTreePts, BBTreeDiscrete, findCommonTuples (double, integer), computeTupleIdsNearTuples, areIncludedInMe, getDifferentValues | invariant of the marks of the main loop; the searches of C59; conversions of C37 |
| C61 | getElementsAroundPoint2, findClosestTupleId, minimalDistanceTo, distanceToTuple, getMinMaxPerComponent (sqrt: any function above the square root) | pruning lemma; the doubling radius ends (archimedean) |
| C62 | CellModel.cxx: the table of models (generated text), sons, edges, micro edges, polyhedra, orientation, extrusion; OrientationInverter.cxx | what the table says of ranks is computed in the kernel, then carried over to any connectivity by naturality; polygons and polyhedra by induction |
| C63 | MEDCouplingUMesh.cxx 192-456, 4133-4193: allocateCells, insertNextCell, checks | connectivity seen as the concatenation of the cells; loops as folds on the cells; induction on the insertions |
| C64 | MEDCouplingUMesh.cxx 1806-1907, 3492-3662, MEDCouplingPointSet.cxx 280-498, 733-741, 1529-1835 | folds over the occurrences of nodes in cells; ranks by counting; merge from the groups of coincident tuples (C60) and their numbering (C27) |
| C65 | MEDCouplingUMesh.cxx 694-738, 1918-1971, MEDCouplingUMesh_internal.cxx 606-645 | count, offsets, then fill of the first free place of the slot of each node: the slots are the cells met so far followed by free places |
| C66 | MEDCouplingUMesh_internal.cxx 1048-1146, MEDCouplingUMesh.cxx 3678-3718 | blocks appended by the fill loops; first bad id for the exceptions; the inverse of a permutation (C05) for the numbering |
| C67 | UcModel.v: the policies, AreCellsEqualInPool, candidates by intersection of the lists of cells of the nodes, FindCommonCellsAlgPrivate with its marks, zipConnectivityTraducer, MergeUMeshesOnSameCoords, FuseUMeshesOnSameCoords, areCellsIncludedIn | UcProofs*.v: each policy is an equivalence; the intersection keeps all the cells that contain the nodes, with the counts of the nodes; invariant of the main loop: each group is a whole class with its first cell visited; quotient by convertIndexArrayToO2N |
| C68 | DsModel.v: the generators of sons, buildDescendingConnectivityNoFuseGen, buildDescendingConnectivityGen with the two numberings, explode3DMeshTo1D, explodeMeshIntoMicroEdges | DsProofs*.v: the sons inserted one by one, counts of the nodes; FindCommonCellsAlg on policy 2NoType gives the classes; o2n by first occurrence; the second sweep writes rank and sign; sons of each type by the table of cells |
| C69 | DsModel.v: computeNeighborsOfCells, ComputeNeighborsOfCellsAdv, computeCellNeighborhoodFromNodesOne, buildBoundaryMesh, computeSkin, findBoundaryNodes, findCellIdsOnBoundary | DsProofs5.v, DsProofs6.v, DsProofs7.v: from the descending connectivity; a son has one owner if and only if its nodes are those of one son only |
| C70 | TyModel.v on top of UmModel.v; the loops on runs of cells with the functors ConnReader and ConnReader2, the loop of rearrange2ConsecutiveCellTypes with its number of rounds as fuel | induction on the runs of equal types (TyProofs.v), levels sorted with buildPermArrPerLevel (C08); for the endless case an invariant of the first loop |
| C71 | TyModel.v: the arrays allocated with the announced number of cells, element by element writes, iterators beyond the end | invariants on the runs of types; a specification of the pieces of a profile as lists, found again by checkTypeConsistencyAndContig (C71_profile_back) |
| C72 | ZnModel.v: the two vectors of marks, the two lists of cells to visit, the loops until pointers are equal | invariant by distance: the list to visit is the set of cells at the current distance, the marks those at a smaller or equal one; zones closed under links |
| C73 | ZnModel.v on top of the descending connectivity (DsModel.v) and of getReverseNodalConnectivity (UmModel.v) | the place of an edge of two nodes is 3 times its rank; results of C65 and C68 on the reverse and descending connectivities |
| C74 | MgModel.v on top of the aggregation of arrays, findCommonTuples and the renumbering of nodes (UmModel.v) | block writes with the offset of each mesh, induction on the list of meshes; C64 for the merge of nodes |
| C75 | MgModel.v on top of splitByType, MergeUMeshesOnSameCoords, sortCellsInMEDFileFrmt (TyModel.v, UcModel.v) and renumber | results of C70 and C67, scatter through a permutation, positions in concatenated runs |
| C76 | GlModel.v: localizations, ids per cell, zip, set, queries, aggregate; doubles are rationals | invariant over the calls; ranks of the used ids; induction on the history from its end |
| C77 | FdModel.v: the four discretizations on UMesh | sums over the cells, invariants of the loops, blocks of triples |
| C78 | FdModel.v | the positions of the values form the permutation by blocks; refinement of the in-place renumbering |
| C79 | FdModel.v | blocks of values of the selected cells, selection of tuples, inversion of the renumbering of nodes |
| C80 | FdModel.v; doubles are rationals, DBL_MAX a parameter | invariant on the tuples written so far: the first old entity of each new one |
| C81 | FgModel.v: ordered maps as sorted lists, levels as records | enumeration of the positions whose id is in the set of ids of the families |
| C82 | FgModel.v; family names are decimal strings; id counters are mathematical integers | invariant of the loop over the families meeting the new group; refinement of a map of contents by induction over the history |
| C83 | FgModel.v | two computed histories |
| C84 | FgModel.v | lookup lemmas on ordered maps |
| C85 | FgModel.v; the loop of rearrangeFamilies over the fields is the map it computes | induction over the maps |
| C86 | FgModel2.v | classes of families ordered by their groups, composition of replacements in the fields |
| C87 | FgModel2.v | invariant of the numbering level after level: a renaming of ids of each field, with the families following |
| C88 | FgModel2.v | on the partition theorem of MakePartition; new ids above all old ones in absolute value; invariant over the families for the renaming |
| C89 | OverModel.v | invariant of the removal loop: a pair is on both sides with a finite load, or on one side with an infinite one; the total size decreases |
| C90 | OverModel.v, OverSpec.v | every program is increasing for one order on (sender, receiver, mesh, part); the head with the smallest key can always move; invariant: expected messages = waiting ones followed by those still to be sent |
| C91 | DecModel.v | elements sent from p to q, and awaited by q from p, are the same strictly increasing list of global numbers; segments of the buffers are disjoint |
| C92 | ParModel.v, DecModel.v | columns of the matrix of sent arrays; the aggregated skyline is permuted by a permutation found by sorting; groups of equal ids bracket the packs |
| C93 | ParModel.v | each slice is complemented on its owner; slices are consecutive, so the gathered complements are increasing |
| C94 | ParModel.v | the values travel with the ids; the first of each group of equal ids is taken |
| C95 | ExModel.v | the scan of the numbers keeps the text of the expression with numbers replaced by their places (run_expr); the text is cut at the operators of its lowest level (scan_spine); the tree is that of the grammar (parseDeep_show); evaluation by induction (good_tree); brackets are kept by the replacement of numbers (fillLoop_parens) |
| C96 | GtModel.v | the loops over the nodes of the cells are folds over the pairs (cell, node), for both classes (nodesIn_ok); then the invariants of the marks, counts and fills of the general class |
| C97 | GtModel.v | the loops append the cells one by one to filled buffers (forZ_scan, agg_loop); the first bad cell gives the exception |
| C98 | GtModel.v | loops appending the cells to filled buffers; the inverse permutation; scatter loops with an invariant on the places already written; blocks for the merges |
| C99 | DtModel.v | loops as blocks, induction on the list of slices from its end for the remarkable times |
| C100 | MfModel.v | numbering of pointers by induction from the end of the list, loops as blocks for the vector of integers |
| C101 | OcModel.v: the inner loop (walk), the outer loop (pieces) with the set of the cells not used, on the model of the descending connectivity (DsModel.v) | OcProofs.v: invariant of the walk (the points of the part are saturated but two), then of the outer loop (the parts are closed under contact, the cells not used are the others); OcProofs2.v: points of the descending connectivity against nodes |
| C102 | IvModel.v: dscal, daxpy, dswap, idamax with increments of 1 and their unrolled loops, dgefa, dgedi, inverseMatrix, matrixProduct, the values in Qc; division by zero is UB | IvProofs.v, IvProofs2.v: the unrolled loops are plain loops, a matrix view of the array; IvProofs3.v: one elimination step carries left inverses both ways; IvProofs4.v: the factorisation; IvProofs5.v: the triangular inverse, then the steps undone; IvProofs6.v: both sides, matrices without inverse, product |
| C103 | DmModel.v: a heap of arrays and matrices that point to them, on the models of the arithmetic of arrays (ArithModel.v), of toNoInterlace (LayoutModel.v) and of matrixProduct (IvModel.v); sessions of calls | DmProofs.v: each call through the theorems on arrays; DmProofs2.v: invariant of a session (each matrix has an array of its size), by induction on the calls |
| C104 | DgModel.v: the cell simplification function by function, the three loops on the connectivity with the reads and writes in the same array; DgSpec.v: edges, faces and flat cells | DgProofs.v: cells of dimension 2 by induction on the nodes; DgProofs2.v: the simplification of solids commutes with injective renamings of nodes; DgProofs3.v, DgProofs4.v: so every cell comes down to one of the finitely many patterns of repetition, all evaluated by the kernel; DgProofs5.v to DgProofs7.v: invariants of the three loops on the buffer |
| C105 | SxModel.v: the five methods, with the sizes computed before compared with what is written; SxSpec.v: pieces that fill a cell, polygons and polyhedra of a cell, corners | SxProofs.v: the loop of simplexize for any table of places; SxProofs2.v: the pieces fill the cell, by renaming the nodes of a generic cell; SxProofs3.v: segments and linear cells; SxProofs4.v: polygons, polyhedra and the round trip with unPolyze |
| C106 | OiModel.v: the four methods over the cell functions of CellModel.v; OiSpec.v: a cell turned over, the cells each method takes, the quadratic types | OiProofs.v: one cell rewritten in place leaves the others, and the loop over types visits each cell once; OiProofs2.v: both methods, the involution and the tests |
| C107 | GxModel.v: the five methods, the arrays filled compared with their sizes; GxSpec.v: runs of equal values | GxProofs.v: loops over the cells that stop at the first cell refused; GxProofs2.v: runs extended by one cell, set of types by induction on the ids |
| C108 | RpModel.v: setPartOfMySelf and setPartOfMySelfSlice over the functions of IndexModel.v; RpSpec.v: cells replaced | RpProofs.v, RpProofs2.v: the choice between the two algorithms by induction on the ids, then the theorems of C23 on packs carried to cells |

## 4. Not modelled

MEDLoader (file I/O through HDF5/MED), the geometric intersectors that fill the matrix of a remapper, geometric predicates in floating point, MPI communication, Python bindings, the JIT of
ExprEval.  Within the modelled files: the text output methods, the VTK writers, the Python conversions, memory exhaustion, the
`COffsetDeallocator`, thread interleavings of the reference counters.  `malloc(0)` is assumed not to return a null pointer.
Integer overflow is only modelled where a comment says so (`int` accumulators, 32-bit products).  Forming a pointer out of a buffer
without following it is not counted as undefined.

## 5. Assumptions of the theorems

`Print Assumptions` is called under every property theorem; all of them print `Closed under the global context`.  No axiom of the standard
library is used, no axiom is added, and there is no `Variable`/`Hypothesis` outside of a section.

## 6. Findings: properties that do not hold as documented

Each one is a theorem named `..._refuted` about the model, that exhibits a call on which the claim of `properties.jsonl` fails; the theorems named
`..._partial` give the part that holds.  They come from reading the text, and have not been run.

* C11 the slice selection (safe version) and subArray accept negative bounds and read out of the array.
* C17 buildUniqueNotSorted overflows in max - min on an empty array.
* C21 findIdsRangesInListOfIds reads past the end of the list of ids.
* C24 RemoveIdsFromIndexedArrays is wrong for a non zero offset of removal.
* C25 MakePartition counts the elements with an `int` and fails above 2^31-1 elements (elements that are in no group get an id >= 1 where the documentation shows 0).
* C27 ConvertIndexArrayToO2N only compares the first element of the next packs: a first element out of range, an unsorted pack or an empty last pack is undefined.
* C28 fromListOfPairsToIndexArray may put one element in two groups (C28_disjoint); the merge of groups is not transitive.
* C33 writeOnPlace past the size plus one writes out of the block; self assignment of a MemArray loses its content; push on a read only registration
  with no component changes the information before it throws; pop on a read only registration leaves a room that makes the next push throw.
* C35 MCAuto: assignment from the same raw pointer, or from a member of the pointee, releases the object first.
* C36 updateTime of an aggregate does not call the one of its children: a change two levels below is not seen.
* C37 SkyLineArray: getSimplePackSafe and pushBackPack accept one past the last pack; an empty pack cannot be deleted; deletePack accepts a pack that the
  super pack does not have; replaceSimplePacks changes packs it was not asked to replace.
* C38 a polyhedron with no face is not given back.
* C39 PartDefinition: slices going down are counted and added wrongly, composition is not bound-checked.
* C40 the number of cells of a grid is accumulated in an `int`; no cell can be located when an axis is flat although there are cells.
* C41 IsPartStructured accepts negative ids and divides by zero on an axis without cell; SwitchOnIdsFrom and the extractions do not check the part against the grid.
* C42 AreRangesIntersect answers true for an empty box strictly inside the other.
* C43 reverse nodal connectivity of an empty grid, order and range of the node ids of a part.
* C44 spreading in 3D uses the first factor for the third axis; box and factors are not checked; an empty box divides by zero.
* C45 BlockTopology: localToGlobal uses the sizes of the calling rank, unchecked ids, bounds array too small when components are distributed.
* C46 serialization of a block topology sorts the ranks; a receiver that is already allocated keeps its values when an unallocated array is sent.
* C48/C49 the array itself as source gives other values than a copy; no lower bound check on the start of a contiguous write.
* C50/C56 modulusEqual (three refutations); Add/Multiply reject an empty array with one tuple although documented.
* C57 remapper: a target of another size than the prepared one is written out of its bounds; after a removal of tiny coefficients that follows a transfer the divisors are
  those of other coefficients; IntensiveConservation with a mesh of dimension -1 divides by DBL_MAX; a transfer after a refused matrix succeeds with an array without values;
  a transfer without nature throws after it has given an array to the target.
* C59 BBTree: the class documentation says that a positive epsilon enlarges the searched box; getIntersectingElems tightens it (getElementsAroundPoint enlarges).
* C60 findCommonTuples: groups share tuples when coincidence is not transitive (0, 1, 2 within 1), and with a limit even for equal tuples (5, 5, 5 from 2 gives (0,2) and (1,2)); computeTupleIdsNearTuples
  and getDifferentValues are documented with the euclidian distance and use the infinite norm.
* C61 findClosestTupleId (hence minimalDistanceTo): never returns when this has no tuple and other has one; with four components or more writes behind bounds[6] before the exception; minimalDistanceTo towards
  an empty other returns sqrt(DBL_MAX) and leaves both tuple ids unwritten.
* C62 CellModel: getOrientationStatus of a quadratic 2D cell (TRI6, QUAD8, QPOLYG) with itself answers false (second half copied over the first, whole connectivity searched); changeOrientationOf2D of TRI7, QUAD9 copies one node too many; changeOrientationOf1D of POLYL keeps the first node; the edges of HEXA27 are not set (getNumberOfEdges gives 4294967295, reading them is undefined); getNumberOfSons2 of POLYL is its number of nodes though fillSonCellNodalConnectivity2 throws. OrientationInverterSEG3 swaps nodes 0 and 2: an end and the middle.
* C55 meshes: what is not transmitted (names of arrays, component information), unset coordinates, number of components.
* C63 checkGeomConsistency counts the -1 of a polyhedron as nodes, so that each polyhedron of three faces or more is rejected; an empty index array is accepted by checkConsistency (getNumberOfCells gives -1); checkConsistency does not check that the index is monotonic and within the connectivity: out of bounds reads instead of an exception.
* C64 mergeNodes merges chains of near nodes into the last one of the chain: three points at -1, 0, 1 merged at 6/5 are all moved to 1; duplicateNodes with a node listed twice uses its last position although the documentation says std::find; renumberNodes with a negative number for a node in use leaves -1 in cells that are not polyhedra.
* C67 `findCommonCells`: policy 0 does not compare the types although documented to; policy 1 takes a quadratic triangle and the same one turned as different; a single polyhedron is reported equal to itself; policy 7 writes out of bounds on two opposite segments and merges different cells; policy 9 puts a cell in two groups. `areCellsIncludedIn` gives the id of a cell of the mesh to a cell that is not in it when the mesh has duplicates, and throws when the mesh has no cell; `areCellsIncludedInPolicy7` answers no for a mesh and itself.
* C68 `explodeMeshIntoMicroEdges` always throws on a 3D mesh with cells (the 2D generator makes a mesh of dimension 2 where segments are refused). `buildDescendingConnectivity2` throws on a 1D mesh with two segments that share a node. `buildDescendingConnectivity` throws on a 0D mesh.
* C69 `buildBoundaryMesh` of a mesh without boundary takes the address of the first element of an empty vector.
* C69 The sons of a SEG3 or SEG4 include its middle nodes, so `findBoundaryNodes` and `computeSkin` of a line of quadratic segments return them (`C69_boundary_middle_refuted`).
* C70 rearrange2ConsecutiveCellTypes (MEDCouplingUMesh.cxx 7882-7915): the first loop only moves forward when the type of the cell is new; on a type already met the index stays the same, so the loop never ends unless the number of types is already reached. Proved for every mesh in which a type comes back before all the types are met (triangle, quadrangle, triangle, polygon).
* C71 checkTypeConsistencyAndContig (7418-7537) never compares code[3*k+1] with the mesh: a wrong number is accepted without a word, a too large one leaves elements of the returned array unwritten, a too small one makes it write beyond the end of the array. With a profile, types given in another order than that of the mesh make it search from beyond the last cell.
* C72 ComputeSpreadZoneGraduallyFromSeed: the documentation says that a negative value in arrIn is ignored; the code reads fetched[value], before the first mark (MEDCouplingUMesh_internal.cxx 1936).
* C73 computeNeighborsOfNodes (1270-1275) reads edge e at 3*e+1 and 3*e+2 in the connectivity of the edges, which holds only for edges of two nodes: on a quadratic mesh it returns nodes of other edges, or types of cells, as neighbours, without an exception.
* C75 AggregateSortedByTypeMeshesOnSameCoords skips the null pointers of ms and counts only the other meshes (8104-8110, 8128): the ids documented as mesh ids in ms are shifted after a null pointer. When no mesh has a cell it throws, which is not documented.
* C76 setGaussLocalizationOnCells does not refuse negative cell ids (getTypeOfCell only checks the upper bound): memory before the arrays is read. AreAlmostEqual (MEDCouplingGaussLocalization.cxx 403-413) dereferences std::max_element of an empty range when both vectors are empty, as they are for NORM_POINT1: isEqual of two localizations on points, and the aggregation of Gauss fields on points, read out of bounds.
* C78 renumberCells of a field on Gauss points or on nodes of cells writes array3[0] in an array of size zero when the mesh has no cell (MEDCouplingFieldDiscretization.cxx, renumberArraysForCell of Gauss and GaussNE).
* C79 buildSubMeshDataRange of Gauss (MEDCouplingFieldDiscretization.cxx 2541-2602) and of GaussNE (3690-3737) adds the values of the cell before it tests the end of the range: with step one and an end before the last cell the arrays get the tuples of one more cell, although the range is documented as strictly equivalent to buildSubPart on the ids.
* C80 RenumberEntitiesFromO2NArr marks the tuples not yet written by DBL_MAX: a tuple of values DBL_MAX is overwritten without comparison, and entities without origin keep DBL_MAX; new ids beyond the new number of entities are not checked. MEDCouplingFieldDouble::renumberNodes reads std::max_element of an empty range on a mesh without nodes.
* C81 getFamiliesArr of a level of cells whose family field was never set calls findIdsEqualList on a null pointer (the documentation announces an exception).
* C83 getMaxAbsFamilyIdInArrays takes the absolute value of the maximum of each field and not the maximum of the absolute values: after removeGroup and removeFamiliesReferedByNoGroups, addGroup gives again an id still present in the field, and another group receives the entities that have it. A family used on two levels (createGroupOnAll when both levels have the id 0) is split on one level only: its group loses all its entities of the other level.
* C84 changeFamilyName, removeFamily and setFamilyNameAttachedOnId: the first two handle only the first mention of the family in a group, although setGroupsOnFamily may add a second one (the group then names a family that does not exist, and every reading of it throws); the third one does not update the groups.
* C86 zipFamilies lists the kept family once per merged family in each group: after changeFamilyName of this family the group names a family that does not exist and getGroupArr throws. It may also leave one family on two levels; addGroup on one level then gives the group wrong entities on the other.
* C87 ensureDifferentFamIdsPerLevel compares the ids of each level with a set that is never filled: it returns true without change although an id is on two levels, and the two normalizations that rely on it then lose entities of groups. keepFamIdsOnlyOnLevs numbers new families from the largest family id (not absolute value, not the fields): entities of no group may join the group. normalizeFamIdsTrio turns every group of nodes into the group of all nodes.
* C88 setGroupsAtLevel names its new families Family_<id> without looking whether the name exists: a family renamed that way before is overwritten and its groups lose entities. The earlier groups are not cleared although the documentation says so, and a group given with no entity does not exist afterwards.
* C91 StructuredCoincidentDEC prints four entries of its counts and displacements whatever the number of processes (C91_few_processes_refuted), and gives wrong values when the ranks of a group are not increasing (C91_order_refuted); the world broadcast also blocks if a process is in neither group.
* C95 Expressions: ".5" is silently replaced by the first number of the text (C95_point_refuted); fourteen numbers of one figure are refused because the length of the text is not updated when the numbers of the values get two figures (C95_many_numbers_refuted); "-cos(x)", "max(max(1,2),3)", "if(x>2,7,8)*2" are refused; "--(3,4)" reads below the stack (C95_list_refuted); the test of a number right after a closing bracket is never reached.
* C96 Meshes with a single type: getNodeIdsOfCell does not refuse negative ids (C96_negative_id_refuted); MEDCoupling1DGTUMesh::computeFetchedNodeIds and getNodeIdsInUse disagree when the connectivity is not packed (C96_fetched_unpacked_refuted); fillCellIdsToKeepFromNodeIds throws on a mesh without cells (C96_lying_on_empty_refuted).
* C97 Meshes with a single type: MEDCoupling1DGTUMesh::buildUnstructured on a connectivity that is not packed returns a mesh whose connectivity array ends with values never written (C97_to_dynamic_refuted); AggregateOnSameCoordsToUMesh counts the cells with an int.
* C98 Meshes with a single type: MEDCoupling1DGTUMesh::renumberCells on a connectivity that is not packed leaves the end of the new connectivity unwritten (C98_renumber_unpacked_refuted). BuildAPolygonFromParts never marks a part as taken (only the first one): with the parts {0,1} {1,2} {2,3} {3,1} {7,8} it answers 0,1,2,3,1,2 instead of refusing (C98_polygon_refuted).
* C99 Definition of the time: the constructor returns before the tolerance is set when there is one field, and every later use reads an uninitialised double (C99_single_refuted); a null field is not refused: the test looks at arrRefs.empty() (C99_null_refuted); assign does not copy the tolerance (C99_assign_refuted); isOverllapingWithMe answers true when the slices are disjoint (C99_overlap_refuted); three fields at the same instant are accepted and then refused at that instant (C99_too_many_refuted); tolerances add up, so the remarkable times of an accepted sequence may go back (C99_hot_order_refuted); with a null tolerance, intervals that follow each other exactly are accepted by MEDCouplingFieldOverTime and have no definition of time (C99_over_time_zone_refuted).
* C100 Sets of fields: the deep copy loses the time unit of each field and shares its spatial discretization, so that Gauss localizations set on the copy are set on the original (C100_deep_copy_unit_refuted); isEqual compares the sharing of the arrays of this with itself (C100_is_equal_arrays_refuted); getArrays and getTinySerializationInformation dereference null fields, which the other methods accept (C100_arrays_partial, C100_write_null_refuted).
* C101 orderConsecutiveCells1D writes past the end of its array when the end of a segment is the middle node of a quadratic segment (each node in two cells at most): the walk enters a cell already placed in an earlier part and writes it again.
* C102 inverseMatrix ignores the status of the factorisation: a matrix without inverse is not refused, the code divides by zero (the result holds infinities or NaN). That status is also wrong: a zero pivot in column k stores the 0-based k, so one in the first column stores 0, the value of success. With n = 0 a value is written before the array of the pivots.
* C103 DenseMatrix::transpose refuses a matrix without column, though one without row is accepted; it moves the values of the array in place, so a shallow copy keeps its shape and has its values mixed up. Multiply, MatVecMult and transpose do not compare the size of the array with the shape: an array shortened by its user is read past its end.
* C104 convertDegeneratedCells writes the simplified cell in place although it may be longer than the cell: a HEXA8 with one merged edge becomes a polyhedron of 27 values in a place for 8, a TETRA4 with nodes a, b, c, c takes 7 values in a place for 4: the next cells are overwritten, or the write is past the end of the array. A solid that keeps no face with three nodes makes getFullPolyh3DCell step back before its buffer. A HEXA8 with a face folded on a diagonal, for example 0,0,1,1,0,2,0,3, may become a TETRA4 with a face it did not have. The documentation of convertDegeneratedCellsAndRemoveFlatOnes says that a linear cell is flat when all its points are equal, but a triangle with two different nodes is removed too.
* C105 convertToPolyTypes allocates nbOfFaces*lgthOld+1 values for a polyhedron, one less than it writes when the polyhedron has one face only.
* C106 invertOrientationOfAllCells exchanges an end and the middle of each SEG3; changeOrientationOfCells writes out of the cells with a node at their centre (TRI7, QUAD9).
* C108 setPartOfMySelf with an id given twice and cells of another size makes a connectivity longer than its index, whose end is never written.

Other remarks that are visible in the models but are not claims: sortEachPairToMakeALinkedList throws on (1,2),(2,1); splitInBalancedSlices does not reject negative
values although documented; alloc with a negative size does not throw although documented; renumberInPlace leaks its buffer when it throws; findIdsEqualList and
findIdsNotEqualList do not check the allocation; setPartOfValues2/3 write the tuples before an invalid id, and setPartOfValues3, Simple2 and Simple3 do not look at the
tuple ids when there is no component.

## 7. Wrong programs

`seeded/LOG.jsonl` has one line per wrong program tried: `tools/seed.py` copies the sources, makes one edit in a model file, recompiles with every failing proof replaced by
`Admitted`, and reports the theorems of `Prop*.v` whose proof, or the proof of a lemma they use, no longer goes through.  An edit that leaves the behaviour unchanged is marked as such.
When a wrong program survived, the theorem was tightened and the line says so.

Not tried, for lack of time: no wrong program of `GxModel.v` (C107) nor of `RpModel.v` (C108) was run, so the theorems of these two properties are untested in this sense;
for `OiModel.v` (C106) and `SxModel.v` (C105) only part of the prepared edits was run (18 and 21 lines of the log, five of the latter by evaluation instead of a rebuild, as their field `how` says).
