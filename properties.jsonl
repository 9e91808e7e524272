{"id": "C01", "title": "Length and content of an arithmetic range", "statement": "GetNumberOfItemGivenBES(begin,end,step) (step>0) and GetNumberOfItemGivenBESRelative (any non zero step) return exactly the number of integers begin, begin+step, begin+2*step, ... that stay strictly before end in the direction of step; they throw exactly when the step is null or points away from end. DataArrayInt::Range returns precisely these integers, in order. GetPosOfItemGivenBESRelativeNoThrow(v,...) returns the position of v in that list, or -1 when v is not in it.", "quantifier": "all integers begin, end, step, value", "why_tests_cant": "the triples (begin,end,step) are infinite; the off-by-one behaviour of the integer division depends on sign and divisibility of each triple", "anchors": ["src/MEDCoupling/MEDCouplingMemArray.txx: DataArrayTools::GetNumberOfItemGivenBES, GetNumberOfItemGivenBESRelative, GetPosOfItemGivenBESRelativeNoThrow, DataArrayDiscrete::Range"]}
{"id": "C02", "title": "Slices of a range partition it", "statement": "For a range (start,stop,step) and a number n>0 of slices, the n slices returned by GetSlice(start,stop,step,i,n), i=0..n-1, concatenated in order give exactly the elements of the range: none lost, none duplicated, order kept. GetSlice throws exactly for n<=0 or i outside [0,n).", "quantifier": "all ranges, all slice counts, all slice ids", "why_tests_cant": "number of slices and length of range are unbounded and the remainder of the division is dumped in the last slice", "anchors": ["src/MEDCoupling/MEDCouplingMemArray.txx: DataArrayTools::GetSlice"]}
{"id": "C03", "title": "Range recognition is exact", "statement": "isRange returns true on a one-component array iff its values are those of Range(a,b,c) for some a,b,c, and in that case the three values it returns rebuild the very same array through Range.", "quantifier": "all one-component integer arrays", "why_tests_cant": "equivalence over all arrays; the negative direction (no range exists) cannot be sampled", "anchors": ["src/MEDCoupling/MEDCouplingMemArray.txx: DataArrayDiscrete::isRange, Range"]}
{"id": "C04", "title": "Renumbering by a permutation moves every tuple to its announced place and is undone by the inverse", "statement": "For every array and every permutation o2n of its tuple ids, renumber(o2n)[o2n[i]] = this[i], renumberR(n2o)[i] = this[n2o[i]], renumberR(o2n) applied on renumber(o2n) gives back the original array, the in-place variants give the same values as the copying ones, and every cell of the result is initialised; the multiset of tuples is unchanged.", "quantifier": "all arrays (any number of tuples and components), all permutations", "why_tests_cant": "n! permutations of arbitrary length", "anchors": ["src/MEDCoupling/MEDCouplingMemArray.txx: DataArrayTemplate::renumber, renumberR, renumberInPlace, renumberInPlaceR"]}
{"id": "C05", "title": "In-place renumbering rejects every out of range id", "statement": "renumberInPlace and renumberInPlaceR throw iff some id of the given map is outside [0,nbOfTuples); they never read or write outside of the array. When they throw the array is left unchanged.", "quantifier": "all arrays and all maps (not only permutations)", "why_tests_cant": "memory safety for every map", "anchors": ["src/MEDCoupling/MEDCouplingMemArray.txx: DataArrayTemplate::renumberInPlace, renumberInPlaceR"]}
{"id": "C06", "title": "Reduction by renumberAndReduce keeps exactly the tuples with a non negative target", "statement": "renumberAndReduce(o2n,newNb) places tuple i at position o2n[i] for each i with o2n[i]>=0, drops the others, never writes out of the result when the targets are < newNb, and, when the non negative targets enumerate [0,newNb) exactly, the result is fully initialised.", "quantifier": "all arrays and all old to new maps with deletions", "why_tests_cant": "all maps of all sizes", "anchors": ["src/MEDCoupling/MEDCouplingMemArray.txx: DataArrayTemplate::renumberAndReduce"]}
{"id": "C07", "title": "Old-to-new and new-to-old maps are mutually inverse", "statement": "invertArrayO2N2N2O(newNb), invertArrayN2O2O2N(oldNb), invertArrayO2N2N2OBis and invertArrayN2O2O2NOptimized return an array r with r[this[i]]=i for every i of an injective map; inverting twice a permutation yields the original; both throw exactly when an id is out of the announced range; a surjective map yields a fully initialised result.", "quantifier": "all maps, all sizes", "why_tests_cant": "all permutations and partial maps of any size", "anchors": ["src/MEDCoupling/MEDCouplingMemArray.txx: DataArrayDiscrete::invertArrayO2N2N2O, invertArrayN2O2O2N, invertArrayO2N2N2OBis"]}
{"id": "C08", "title": "Permutation between two arrays", "statement": "buildPermutationArr(other) returns ids with this[ret[i]] = other[i] for all i and throws exactly when some value of other is missing in this (or shapes differ). FindPermutationFromFirstToSecond(a,b) returns p with b[p[i]] = a[i], p a permutation of [0,n), whenever the values of a are distinct and b is a reordering of a, and throws in every other case. FindPermutationFromFirstToSecondDuplicate(a,b) does the same for arrays with repeated values (the k-th occurrence of a value in a is sent to its k-th occurrence in b) and throws exactly when b is not a reordering of a.", "quantifier": "all pairs of arrays", "why_tests_cant": "all pairs of arrays with arbitrary repetitions", "anchors": ["src/MEDCoupling/MEDCouplingMemArray.txx: DataArrayDiscrete::buildPermutationArr, FindPermutationFromFirstToSecond, CheckAndPreparePermutation"]}
{"id": "C09", "title": "Ranking of distinct values", "statement": "checkAndPreparePermutation returns, for an array of pairwise distinct values, the array of ranks: ret is a permutation of [0,n) and this[i]<this[j] iff ret[i]<ret[j]; it throws exactly when a value is repeated. buildPermArrPerLevel returns a permutation stable within each level and ordered by level.", "quantifier": "all one-component arrays", "why_tests_cant": "all arrays of any length", "anchors": ["src/MEDCoupling/MEDCouplingMemArray.txx: DataArrayDiscrete::checkAndPreparePermutation, CheckAndPreparePermutation, buildPermArrPerLevel"]}
{"id": "C10", "title": "Selection by tuple ids", "statement": "selectByTupleId(ids)[i] = this[ids[i]] for every list of ids; selectByTupleIdSafe throws exactly when an id lies outside [0,nbOfTuples) and otherwise equals selectByTupleId; it never accesses memory out of the array.", "quantifier": "all arrays, all id lists (with repetitions, out of range ids)", "why_tests_cant": "all id lists; absence of out of bound accesses", "anchors": ["src/MEDCoupling/MEDCouplingMemArray.txx: DataArrayTemplate::mySelectByTupleId, mySelectByTupleIdSafe"]}
{"id": "C11", "title": "Selection by slice is safe", "statement": "selectByTupleIdSafeSlice(bg,end,step) is equivalent to selectByTupleIdSafe on the explicit list range(bg,end,step): same result on valid slices and an exception, never an out of bound access, on slices leaving the array. subArray(bg,end) returns tuples bg..end-1.", "quantifier": "all arrays and all triples (bg,end,step)", "why_tests_cant": "memory safety for every triple", "anchors": ["src/MEDCoupling/MEDCouplingMemArray.txx: DataArrayTemplate::mySelectByTupleIdSafeSlice, subArray"]}
{"id": "C12", "title": "Selection by tuple ranges", "statement": "selectByTupleRanges(ranges) returns the concatenation of the tuples of each range [b,e) and throws exactly when a range has e<b or leaves [0,nbOfTuples]; the shortcut taken when the ranges cover everything in increasing order returns the same result.", "quantifier": "all arrays and lists of ranges", "why_tests_cant": "all lists of ranges; the shortcut must agree with the general path for each of them", "anchors": ["src/MEDCoupling/MEDCouplingMemArray.txx: DataArrayTemplate::mySelectByTupleRanges"]}
{"id": "C13", "title": "Search by value returns every matching id, once, in ascending order", "statement": "findIdsEqual, findIdsNotEqual, findIdsEqualList, findIdsNotEqualList, findIdsInRange, findIdsNotInRange, findIdsLowerThan..., return strictly increasing ids and an id is returned iff the value of the tuple satisfies the announced predicate; findIdFirstEqual returns the smallest such id or -1; count equals the number of ids; predicate and negated predicate partition the ids.", "quantifier": "all one-component arrays and search values", "why_tests_cant": "soundness and completeness for arrays of any length", "anchors": ["src/MEDCoupling/MEDCouplingMemArray.txx: DataArrayDiscrete::findIdsEqual, findIdsNotEqual, findIdsEqualList, findIdsNotEqualList, findIdsInRange, findIdFirstEqual, count"]}
{"id": "C14", "title": "Search of a sub-sequence", "statement": "findIdSequence(vals) returns the smallest position at which vals occurs contiguously in this or -1 if there is none; findIdFirstEqualTuple / findIdsEqualTuple return exactly the tuple ids equal to the given tuple (occurrences not aligned with a tuple boundary are ignored).", "quantifier": "all arrays, all sequences", "why_tests_cant": "all positions and misaligned partial matches", "anchors": ["src/MEDCoupling/MEDCouplingMemArray.txx: DataArrayDiscrete::findIdSequence, findIdFirstEqualTuple, findIdsEqualTuple"]}
{"id": "C15", "title": "Complement and subtraction of id sets", "statement": "buildComplement(n) returns in ascending order exactly the integers of [0,n) that do not occur in this and throws exactly when a value is outside [0,n); buildSubstraction(other) returns exactly the values of this absent from other, ascending without repetition; complement is an involution on subsets; buildSubstractionOptimized agrees with buildSubstraction on strictly increasing inputs when other is included in this.", "quantifier": "all id arrays", "why_tests_cant": "all subsets of all universes", "anchors": ["src/MEDCoupling/MEDCouplingMemArray.txx: DataArrayDiscrete::buildComplement, buildSubstraction, buildSubstractionOptimized"]}
{"id": "C16", "title": "Union and intersection of id sets", "statement": "BuildUnion/BuildIntersection return, in strictly ascending order, exactly the ids that belong to at least one / to all the given arrays; null arrays are ignored; they throw exactly when an array is not allocated or has not one component, and BuildIntersection also when exactly one array is given.", "quantifier": "all finite families of id arrays", "why_tests_cant": "all families of sets", "anchors": ["src/MEDCoupling/MEDCouplingMemArray.txx: DataArrayDiscrete::BuildUnion, BuildIntersection, buildUnion, buildIntersection"]}
{"id": "C17", "title": "Duplicate removal", "statement": "buildUnique on a sorted array returns the strictly increasing array of its distinct values; buildUniqueNotSorted keeps exactly the first occurrence of every value in the original order (when max-min+1 fits the integer type); getDifferentValues returns the set of values.", "quantifier": "all one-component arrays", "why_tests_cant": "all arrays", "anchors": ["src/MEDCoupling/MEDCouplingMemArray.txx: DataArrayDiscrete::buildUnique, buildUniqueNotSorted, getDifferentValues"]}
{"id": "C18", "title": "Index arrays: offsets and sizes are inverse of each other", "statement": "computeOffsetsFull followed by deltaShiftIndex is the identity and deltaShiftIndex followed by computeOffsetsFull is the identity on index arrays starting at 0; computeOffsets gives the exclusive prefix sums.", "quantifier": "all arrays of sizes / all index arrays", "why_tests_cant": "all lengths and values", "anchors": ["src/MEDCoupling/MEDCouplingMemArray.txx: DataArrayDiscrete::computeOffsets, computeOffsetsFull, deltaShiftIndex"]}
{"id": "C19", "title": "Location of ids in consecutive ranges", "statement": "For a list of ranges, findRangeIdForEachTuple returns for every tuple the id of a range containing it and findIdInRangeForEachTuple its position in this range; they throw iff a tuple is in no range; the pair (range id, position) determines the value.", "quantifier": "all value arrays and all lists of pairwise disjoint ranges", "why_tests_cant": "the scan keeps a cursor between queries, so correctness depends on the history of previous queries", "anchors": ["src/MEDCoupling/MEDCouplingMemArray.txx: DataArrayDiscrete::findRangeIdForEachTuple, findIdInRangeForEachTuple"]}
{"id": "C20", "title": "Expansion of index ranges", "statement": "buildExplicitArrByRanges(offsets) returns the concatenation, for each value v of this, of the integers offsets[v]..offsets[v+1]-1; throws exactly when a value is not a valid range id or offsets decrease; buildExplicitArrOfSliceOnScaledArr(bg,stop,step) returns the concatenation, for each id of the slice, of this id repeated this[id+1]-this[id] times, with the same refusals.", "quantifier": "all id arrays and index arrays", "why_tests_cant": "all index arrays", "anchors": ["src/MEDCoupling/MEDCouplingMemArray.txx: DataArrayDiscrete::buildExplicitArrByRanges, buildExplicitArrOfSliceOnScaledArr"]}
{"id": "C21", "title": "Ids filling completely a range", "statement": "findIdsRangesInListOfIds returns exactly the ranges of this whose ids are all present in the sorted list listOfIds, and the ids concerned, without reading outside of the input list.", "quantifier": "all index arrays and all sorted id lists", "why_tests_cant": "memory safety and completeness for all lists", "anchors": ["src/MEDCoupling/MEDCouplingMemArray.txx: DataArrayDiscrete::findIdsRangesInListOfIds"]}
{"id": "C22", "title": "Extraction from indexed arrays", "statement": "ExtractFromIndexedArrays(ids,arr,arrIndex) returns an indexed array whose i-th pack is the pack ids[i] of the input; throws exactly when an id or a pack is out of bounds or a selected pack is decreasing; the slice variant agrees with the list variant.", "quantifier": "all indexed arrays and all id lists", "why_tests_cant": "all pack structures and selections", "anchors": ["src/MEDCoupling/MEDCouplingMemArray.txx: DataArrayDiscrete::ExtractFromIndexedArrays, ExtractFromIndexedArraysSlice"]}
{"id": "C23", "title": "Replacement in indexed arrays", "statement": "SetPartOfIndexedArrays returns an indexed array with the pack ids[k] replaced by the pack k of the source and every other pack unchanged, without writing out of the result buffers, for every list of distinct valid ids.", "quantifier": "all indexed arrays, sources and id lists", "why_tests_cant": "all pack structures and selections", "anchors": ["src/MEDCoupling/MEDCouplingMemArray.txx: DataArrayDiscrete::SetPartOfIndexedArrays, SetPartOfIndexedArraysSlice, SetPartOfIndexedArraysSameIdx"]}
{"id": "C24", "title": "Removal from indexed arrays", "statement": "RemoveIdsFromIndexedArrays(ids,arr,arrIndex,offset) removes from each pack, from position offset on, exactly the values that belong to ids; the other values stay in place and in order; it returns false iff nothing was removed.", "quantifier": "all indexed arrays, all sets of ids, all offsets", "why_tests_cant": "all pack structures", "anchors": ["src/MEDCoupling/MEDCouplingMemArray.txx: DataArrayDiscrete::RemoveIdsFromIndexedArrays"]}
{"id": "C25", "title": "Families are the coarsest partition compatible with the groups", "statement": "MakePartition(groups,n): two elements of [0,n) get the same family id iff they belong to the same groups; family ids are contiguous; for each group the returned family ids are exactly the families of its elements, so that the group is rebuilt from its families.", "quantifier": "all lists of groups over all sizes", "why_tests_cant": "all set systems", "anchors": ["src/MEDCoupling/MEDCouplingMemArray.txx: DataArrayDiscrete::MakePartition"]}
{"id": "C26", "title": "Grouping of equal values", "statement": "partitionByDifferentValues returns for each distinct value (ascending) the ascending ids holding it: the id lists are disjoint, cover [0,n), and rebuild the array; indexOfSameConsecutiveValueGroups returns the boundaries of the maximal runs.", "quantifier": "all one-component arrays", "why_tests_cant": "all arrays", "anchors": ["src/MEDCoupling/MEDCouplingMemArray.txx: DataArrayDiscrete::partitionByDifferentValues, indexOfSameConsecutiveValueGroups"]}
{"id": "C27", "title": "Conversion of surjective maps to packs", "statement": "changeSurjectiveFormat(n) and ConvertIndexArrayToO2N are consistent: packs of changeSurjectiveFormat list, for each target, the ascending sources; ConvertIndexArrayToO2N numbers tuples so that two tuples share a number iff they are in the same pack, numbers being contiguous and ordered by first occurrence.", "quantifier": "all surjective maps, all pack structures", "why_tests_cant": "all maps", "anchors": ["src/MEDCoupling/MEDCouplingMemArray.txx: DataArrayDiscrete::changeSurjectiveFormat, ConvertIndexArrayToO2N"]}
{"id": "C28", "title": "Gathering pairs into groups", "statement": "fromListOfPairsToIndexArray groups the ids of a list of pairs so that two ids are in the same group iff they are linked by a chain of pairs; groups are disjoint.", "quantifier": "all lists of pairs", "why_tests_cant": "all graphs on integers", "anchors": ["src/MEDCoupling/MEDCouplingMemArray.txx: DataArrayDiscrete::fromListOfPairsToIndexArray"]}
{"id": "C29", "title": "Chaining of pairs", "statement": "sortToHaveConsecutivePairs only permutes and flips pairs and returns chains such that inside a chain the end of a pair is the start of the next one; sortEachPairToMakeALinkedList only flips pairs and, when it does not throw, makes consecutive pairs share their common id; fromLinkedListOfPairToList returns the node sequence.", "quantifier": "all lists of pairs", "why_tests_cant": "all chains, loops and branchings; termination of the aggregation loop", "anchors": ["src/MEDCoupling/MEDCouplingMemArray.txx: DataArrayDiscrete::sortEachPairToMakeALinkedList, sortToHaveConsecutivePairs, fromLinkedListOfPairToList, PairAggregator"]}
{"id": "C30", "title": "Balanced slices partition the tuples", "statement": "splitInBalancedSlices(n) returns n consecutive intervals that partition [0,nbOfTuples).", "quantifier": "all weight arrays and slice counts", "why_tests_cant": "all weights, including null sums", "anchors": ["src/MEDCoupling/MEDCouplingMemArray.txx: DataArrayDiscrete::splitInBalancedSlices"]}
{"id": "C31", "title": "Interlacing round trips", "statement": "fromNoInterlace and toNoInterlace are inverse of each other and move component j of tuple i exactly to (i,j); rearrange keeps the flat values and is undone by rearrange with the old component count; transpose; explodeComponents followed by Meld is the identity.", "quantifier": "all arrays, all component counts", "why_tests_cant": "all shapes", "anchors": ["src/MEDCoupling/MEDCouplingMemArray.txx: MemArray::fromNoInterlace, toNoInterlace, DataArrayTemplate::rearrange, transpose, explodeComponents, DataArrayTemplateClassic::Meld"]}
{"id": "C32", "title": "Circular permutation is a group action", "statement": "circularPermutation(s) rotates the tuples by s modulo the number of tuples for any signed s: circularPermutation(a) then circularPermutation(b) equals circularPermutation(a+b); circularPermutationPerTuple does the same on the components of every tuple (with the component names); reverse and reversePerTuple are involutions.", "quantifier": "all arrays, all signed shifts", "why_tests_cant": "all shifts and sizes", "anchors": ["src/MEDCoupling/MEDCouplingMemArray.txx: DataArrayTemplate::circularPermutation, circularPermutationPerTuple, reversePerTuple, MemArray::reverse"]}
{"id": "C33", "title": "Growable buffer behaves like a sequence", "statement": "Any sequence of pushBackSilent, popBackSilent, insertAtTheEnd, writeOnPlace, reserve, pack, reAlloc, alloc keeps the content of the array equal to the one of the abstract sequence, and never accesses memory beyond the allocated block, whatever the growth decisions.", "quantifier": "all operation histories", "why_tests_cant": "histories are unbounded; a growth error appears only at particular sizes", "anchors": ["src/MEDCoupling/MEDCouplingMemArray.txx: MemArray::pushBack, popBack, reserve, reAlloc, pack, writeOnPlace, insertAtTheEnd, alloc"]}
{"id": "C34", "title": "Ownership of external buffers", "statement": "Whatever the sequence of useArray(own/not own), useExternalArrayWithRWAccess, alloc, reserve, reAlloc, pack, destruction: a block owned by the array is released exactly once, a block given without ownership is never released nor written through a read-only registration.", "quantifier": "all operation histories", "why_tests_cant": "double free or leak only shows on particular histories", "anchors": ["src/MEDCoupling/MEDCouplingMemArray.txx: MemArray::useArray, useExternalArrayWithRWAccess, destroy, reserve, reAlloc, pack, MEDCouplingPointer::getPointer"]}
{"id": "C35", "title": "Reference counting releases exactly once", "statement": "Whatever the sequence of MCAuto constructions, copies, assignments, takeRef, retn, nullify, destructions and manual incrRef/decrRef by owners, an object is deleted exactly when its last owner disappears, never earlier, never twice.", "quantifier": "all histories of operations on any number of handles and objects", "why_tests_cant": "all aliasing patterns, including self assignment", "anchors": ["src/MEDCoupling/MCAuto.hxx: MCAuto", "src/MEDCoupling/MEDCouplingRefCountObject.cxx: RefCountObjectOnly::incrRef, decrRef"]}
{"id": "C36", "title": "Modification time labels", "statement": "After declareAsNew on an object its time label is strictly greater than every label existing before; an aggregate whose updateTime visits its children has a label that increased iff one of them was modified since the previous update; TimeLabelConstOverseer::checkConst throws iff the tracked object or one of its children was modified since the reference was taken.", "quantifier": "all histories over any number of objects", "why_tests_cant": "depends on the whole history", "anchors": ["src/MEDCoupling/MEDCouplingTimeLabel.cxx: TimeLabel::declareAsNew, updateTimeWith, TimeLabelConstOverseer"]}
{"id": "C37", "title": "Skyline arrays behave as lists of packs", "statement": "Every operation of MEDCouplingSkyLineArray (deleteSimplePack(s), replaceSimplePack(s), deletePack, replacePack, pushBackPack, findPackIds, groupPacks, uniqueNotSortedByPack, AggregatePacks, thresholdPerPack, getSimplePackSafe) acts on the represented list of packs (list of lists of packs) as its name announces; indices out of range are rejected; no access out of the buffers.", "quantifier": "all skyline arrays and operation histories", "why_tests_cant": "all pack structures (empty packs, first and last positions)", "anchors": ["src/MEDCoupling/MEDCouplingSkyLineArray.cxx: MEDCouplingSkyLineArray"]}
{"id": "C38", "title": "Polyhedron connectivity round trip", "statement": "convertToPolyhedronConn followed by BuildFromPolyhedronConn gives back the same three-level skyline array, and conversely, without writing out of the buffers.", "quantifier": "all three level skyline arrays", "why_tests_cant": "all shapes, including cells without faces", "anchors": ["src/MEDCoupling/MEDCouplingSkyLineArray.cxx: BuildFromPolyhedronConn, convertToPolyhedronConn"]}
{"id": "C39", "title": "Part definitions", "statement": "A slice part and a list part denote an id sequence (toDAI). deepCopy, tryToSimplify and serialize/Unserialize preserve it; getNumberOfElems is its length; p+q denotes the sorted merge; p.composeWith(q) denotes i -> q[p[i]] and is rejected when p addresses outside q.", "quantifier": "all part definitions", "why_tests_cant": "all pairs of parts, both representations", "anchors": ["src/MEDCoupling/MEDCouplingPartDefinition.cxx: DataArrayPartDefinition, SlicePartDefinition"]}
{"id": "C40", "title": "Structured meshes: ids and positions are in bijection", "statement": "getLocationFromCellId/getCellIdFromPos and getLocationFromNodeId/getNodeIdFromPos are inverse bijections between [0,nb) and the grid positions; out of range ids throw.", "quantifier": "all grid structures in dimension 1, 2, 3, all ids", "why_tests_cant": "all grid sizes, including those above 2^31 cells and flat axes", "anchors": ["src/MEDCoupling/MEDCouplingStructuredMesh.cxx: getCellIdFromPos, getNodeIdFromPos, getLocationFromCellId, getLocationFromNodeId, GetPosFromId, GetSplitVectFromStruct"]}
{"id": "C41", "title": "Structured parts: box and id list are equivalent", "statement": "BuildExplicitIdsFrom(st,part) lists in ascending order exactly the ids of the cells in the box; IsPartStructured recognises exactly these lists and returns the box; SwitchOnIdsFrom sets exactly these flags; ExtractFieldOfBoolFrom/ExtractFieldOfDoubleFrom read exactly these entries.", "quantifier": "all structures of dimension 1 to 3 and all boxes", "why_tests_cant": "all boxes", "anchors": ["src/MEDCoupling/MEDCouplingStructuredMesh.cxx: BuildExplicitIdsFrom, IsPartStructured, SwitchOnIdsFrom, ExtractFieldOfBoolFrom, ExtractFieldOfDoubleFrom"]}
{"id": "C42", "title": "Box arithmetic", "statement": "IntersectRanges and AreRangesIntersect agree with the set intersection of boxes; ChangeReferenceToGlobalOfCompactFrmt and ChangeReferenceFromGlobalOfCompactFrmt are inverse; TranslateCompactFrmt/FindTranslationFrom are consistent; FindMinimalPartOf returns a box inside the mesh that contains all the true cells with at least the required length.", "quantifier": "all boxes in any dimension", "why_tests_cant": "all boxes and criteria", "anchors": ["src/MEDCoupling/MEDCouplingStructuredMesh.cxx: IntersectRanges, AreRangesIntersect, ChangeReferenceFromGlobalOfCompactFrmt, ChangeReferenceToGlobalOfCompactFrmt, FindMinimalPartOf"]}
{"id": "C43", "title": "Structured to unstructured connectivity", "statement": "Build1GTNodalConnectivity gives for every cell (i,j,k) the node ids of its corners, and getReverseNodalConnectivity is exactly its transpose: cell c is listed for node n iff n is a node of c, ascending without repetition, filling the buffers exactly.", "quantifier": "all grid structures", "why_tests_cant": "all grid sizes including flat axes", "anchors": ["src/MEDCoupling/MEDCouplingStructuredMesh.cxx: Build1GTNodalConnectivity1D/2D/3D, GetReverseNodalConnectivity1/2/3"]}
{"id": "C44", "title": "AMR transfer: condensation sums, spreading copies", "statement": "CondenseFineToCoarse sets each coarse cell of the patch to the sum of its fine children and leaves the other coarse cells unchanged (hence conserves the total); SpreadCoarseToFine gives each fine cell the value of its parent; condensing a spread field multiplies it by the refinement factor.", "quantifier": "all structures, patches and factors in dimension 1, 2, 3", "why_tests_cant": "all sizes of patches and factors", "anchors": ["src/MEDCoupling/MEDCouplingIMesh.cxx: CondenseFineToCoarse, SpreadCoarseToFine, CondenseFineToCoarseGhost"]}
{"id": "C45", "title": "Block distribution over processes is a bijection", "statement": "In a BlockTopology every global id belongs to exactly one process and localToGlobal(globalToLocal(g)) = g for every g, whichever process evaluates it; the block sizes sum to the number of elements.", "quantifier": "all numbers of processes and elements, all global ids, all evaluating ranks", "why_tests_cant": "all distributions and ranks", "anchors": ["src/ParaMEDMEM/BlockTopology.cxx: globalToLocal, localToGlobal, getNbLocalElements"]}
{"id": "C46", "title": "Serialization round trips", "statement": "The tiny and full serialization of arrays, part definitions and block topologies rebuild an equal object.", "quantifier": "all objects", "why_tests_cant": "all contents", "anchors": ["src/MEDCoupling/MEDCouplingMemArray.txx: getTinySerializationIntInformation, resizeForUnserialization, finishUnserialization", "src/ParaMEDMEM/BlockTopology.cxx: serialize, unserialize"]}
{"id": "C47", "title": "Aggregation", "statement": "Aggregate(arrays) is the concatenation of the tuples and throws iff the component counts differ; AggregateIndexes concatenates index arrays with shifts so that the packs of the result are the concatenation of the packs.", "quantifier": "all families of arrays", "why_tests_cant": "all families", "anchors": ["src/MEDCoupling/MEDCouplingMemArray.txx: DataArrayDiscrete::Aggregate, AggregateIndexes"]}
{"id": "C48", "title": "Assignment of a sub-block", "statement": "setPartOfValues1..4 / setPartOfValuesSimple1..4 write exactly the announced (tuple,component) entries with the announced source values, leave all the others unchanged, and never access memory out of the arrays for any argument (invalid arguments throw).", "quantifier": "all arrays, all slices and id lists", "why_tests_cant": "all combinations of slices and lists", "anchors": ["src/MEDCoupling/MEDCouplingMemArray.txx: DataArrayTemplate::setPartOfValues1, setPartOfValues2, setPartOfValues3, setPartOfValues4, setPartOfValuesSimple1..4"]}
{"id": "C49", "title": "Contiguous assignment", "statement": "setContigPartOfSelectedValues(start,src,ids) and its slice variant write tuple start+k with src[ids[k]], leave the others unchanged and reject any access out of both arrays.", "quantifier": "all arrays and ids", "why_tests_cant": "memory safety for all arguments", "anchors": ["src/MEDCoupling/MEDCouplingMemArray.txx: DataArrayTemplate::setContigPartOfSelectedValues, setContigPartOfSelectedValuesSlice"]}
{"id": "C50", "title": "Element-wise arithmetic with broadcasting", "statement": "addEqual, substractEqual, multiplyEqual, divideEqual, modulusEqual, powEqual apply the operation entry by entry under the three documented shape rules (same shape, one component, one tuple), throw for any other shape, and never access memory out of the operands.", "quantifier": "all arrays", "why_tests_cant": "all shapes", "anchors": ["src/MEDCoupling/MEDCouplingMemArray.txx: DataArrayTemplateClassic::somethingEqual, DataArrayDiscrete::modulusEqual"]}
{"id": "C51", "title": "Order and shape predicates are exact", "statement": "isIota(n), isUniform(v), hasUniqueValues, isMonotonic and isStrictlyMonotonic return true exactly when the array is 0..n-1, constant equal to v, without repetition, (strictly) sorted in the requested direction; checkUniformAndGuess returns the common value and throws exactly when the array is empty or not constant.", "quantifier": "all one-component integer arrays", "why_tests_cant": "equivalences over all arrays; a predicate that looks only at part of the array passes any finite sample", "anchors": ["src/MEDCoupling/MEDCouplingMemArray.txx: isIota, isUniform, checkUniformAndGuess, hasUniqueValues, isMonotonic, isStrictlyMonotonic"]}
{"id": "C52", "title": "Counting and substituting a value, checking a range of ids", "statement": "count(v) is the number of entries equal to v; changeValue(old,new) replaces exactly the entries equal to old, leaves the others and returns their number (0 when old=new); checkAllIdsInRange(vmin,vmax) throws exactly when a value is outside [vmin,vmax) and otherwise tells whether the array is the identity.", "quantifier": "all one-component integer arrays, all values and bounds", "why_tests_cant": "all arrays and all bounds", "anchors": ["src/MEDCoupling/MEDCouplingMemArray.txx: changeValue, count, checkAllIdsInRange"]}
{"id": "C53", "title": "Locating the values of another array", "statement": "indicesOfSubPart(part) returns ret with this[ret[i]]=part[i] and throws exactly when this has repeated values or part has a value absent from this; findIdForEach(vals) returns the last position of each value and throws exactly when one is absent; occurenceRankInThis returns for each position the number of earlier entries with the same value.", "quantifier": "all pairs of one-component integer arrays", "why_tests_cant": "all contents, including repeated values", "anchors": ["src/MEDCoupling/MEDCouplingMemArray.txx: indicesOfSubPart, findIdForEach, occurenceRankInThis"]}
{"id": "C54", "title": "Choosing, replacing and repeating components and tuples", "statement": "changeNbOfComponents keeps the first components of every tuple and completes with the default value; keepSelectedComponents(ids) returns the components ids[0],ids[1],... of every tuple and throws exactly on an id out of range; setSelectedComponents writes component k of the source in component ids[k] of every common tuple, nothing else, and throws exactly on a bad number of ids or an id out of range; duplicateEachTupleNTimes(n) and duplicateNTimes(n) repeat each tuple, respectively the whole array, n times.", "quantifier": "all arrays, numbers of components, lists of component ids", "why_tests_cant": "all shapes and id lists, repeated ids included", "anchors": ["src/MEDCoupling/MEDCouplingMemArray.txx: changeNbOfComponents, myKeepSelectedComponents, setSelectedComponents, duplicateEachTupleNTimes, duplicateNTimes"]}
{"id": "C55", "title": "Serialization of meshes gives back an equal mesh", "statement": "Sending a mesh to another process (tiny information, resizing, serialization, unserialization) or pickling it rebuilds an equal mesh: same name, description, time and time unit, same structure or connectivity and types, same coordinates with their component information.", "quantifier": "all meshes of the classes with a serialization (unstructured, single geometric type, Cartesian, curvilinear, image, extruded), all sizes, component names and times", "why_tests_cant": "all combinations of present or missing arrays, sizes and component counts", "anchors": ["src/MEDCoupling/MEDCouplingUMesh.cxx, MEDCouplingPointSet.cxx, MEDCoupling1GTUMesh.cxx, MEDCouplingCMesh.cxx, MEDCouplingIMesh.cxx, MEDCouplingCurveLinearMesh.cxx, MEDCouplingMappedExtrudedMesh.cxx: getTinySerializationInformation, resizeForUnserialization, serialize, unserialization"]}
{"id": "C56", "title": "Arithmetic giving a new array, and functions applied to every value", "statement": "Add, Multiply, Substract, Divide, Modulus and Pow return a new array of the documented shape whose entries are the operation applied to the entries of both operands, under the three documented shape rules, and throw for any other shape; negate, computeAbs and sumPerTuple likewise for one operand; applyLin, abs, applyInv, applyDivideBy, applyModulus, applyRModulus, applyPow and applyRPow change every value and throw exactly on the documented values; no memory is accessed out of the operands", "quantifier": "all pairs of arrays of any shape and values, all scalar parameters", "why_tests_cant": "shapes, values and the position of the first value that is rejected are unbounded", "anchors": ["src/MEDCoupling/MEDCouplingMemArray.txx: DivSub, MulAdd, Pow, Modulus, negate, computeAbs, sumPerTuple, applyLin, applyInv, applyDivideBy, applyModulus, applyRModulus, applyPow, applyRPow"]}
{"id": "C57", "title": "Transfer of a field between two meshes", "statement": "After a matrix is prepared, transfer gives at each target entity the sum over its coefficients of coefficient / divisor * source value, the divisor being the one documented for the nature of the field (row sum, column sum, source measure, target measure), and the default value at entities without coefficient (partialTransfer keeps their value); reverseTransfer does the same with the transposed matrix. Hence ExtensiveConservation conserves the sum, IntensiveConservation the integral, IntensiveMaximum keeps constants and the bounds of the source, ExtensiveMaximum keeps a density. Fields that do not agree with the preparation are refused and nothing changes.", "quantifier": "all matrices, fields, numbers of components, natures, default values, dimensions (including -1) and all sequences of calls on the remapper", "why_tests_cant": "matrices, fields and the history of calls on the remapper are unbounded", "anchors": ["src/MEDCoupling/MEDCouplingRemapper.cxx: transfer, partialTransfer, reverseTransfer, transferUnderground, computeDeno, computeProduct, computeReverseProduct, ComputeRowSumAndColSum, ComputeColSumAndRowSum"]}
{"id": "C58", "title": "The crude matrix of a remapper", "statement": "setCrudeMatrix accepts a matrix exactly when it has one row by target entity and its columns are source entities, and then stores it unchanged; otherwise it throws and the matrix is empty. nullifiedTinyCoeffInCrudeMatrixAbs(eps) removes exactly the coefficients of absolute value not above eps and returns their number; the relative version uses eps times the greatest absolute value and returns -1 when all are null. The transposition has the same coefficients with rows and columns exchanged. For extruded meshes the coefficients are the products of the 1D and 2D coefficients, at the 3D cells given by the correspondences.", "quantifier": "all matrices, limits and correspondences", "why_tests_cant": "matrices of any size and content", "anchors": ["src/MEDCoupling/MEDCouplingRemapper.cxx: setCrudeMatrix, nullifiedTinyCoeffInCrudeMatrixAbs, nullifiedTinyCoeffInCrudeMatrix, getMaxValueInCrudeMatrix, ReverseMatrix, buildFinalInterpolationMatrixByConvolution"]}
{"id": "C59", "title": "Searches in a tree of boxes or of points are complete and exact", "statement": "Whatever the boxes, the tolerance and the depth of the tree, getIntersectingElems returns each box overlapping the searched one (by the tolerance on each axis) exactly once and no other, getNbOfIntersectingElems their number, getElementsAroundPoint the boxes that contain the point within the tolerance; the terminals of the tree share out the boxes; computeNbOfInteractionsWith gives for each box of this the number of boxes of other that overlap it, and throws exactly for unallocated arrays, different or odd numbers of components, or a dimension other than 1, 2, 3.", "quantifier": "all sets of boxes and points of any dimension and number, all tolerances of any sign, all searched boxes and points", "why_tests_cant": "the shape of the tree depends on all the coordinates; equal medians, empty sides and deep levels are not enumerable", "anchors": ["src/INTERP_KERNEL/BBTree.txx: BBTreeBase, getIntersectingElems, getNbOfIntersectingElems, getElementsAroundPoint, walk, LeafIterator, size", "src/INTERP_KERNEL/BBTreePts.txx", "src/MEDCoupling/MEDCouplingMemArray.cxx: computeNbOfInteractionsWith"]}
{"id": "C60", "title": "Coincident tuples", "statement": "findCommonTuples returns groups made of a tuple and of all the tuples not before limit that coincide with it (infinite norm within prec; equality for integers), each tuple from limit that coincides with another one being in a group; when coincidence is transitive and there is no limit the groups are the classes, disjoint, with the least id first. computeTupleIdsNearTuples lists for each tuple of other the near tuples of this; areIncludedInMe answers true exactly when each tuple of other is near a tuple of this and then gives such a tuple; getDifferentValues keeps one tuple by class.", "quantifier": "all arrays, numbers of tuples, tolerances, limits", "why_tests_cant": "all coordinates, tolerances and chains of near tuples", "anchors": ["src/MEDCoupling/MEDCouplingMemArray.cxx: findCommonTuples, computeTupleIdsNearTuples, areIncludedInMe, getDifferentValues", "src/MEDCoupling/MEDCouplingMemArray.txx: findCommonTuples", "src/INTERP_KERNEL/BBTreeDiscrete.txx"]}
{"id": "C61", "title": "Closest tuples", "statement": "findClosestTupleId gives for each tuple of other a tuple of this at the least distance, minimalDistanceTo the least distance between the two sets and a pair at this distance, distanceToTuple the least distance and the first tuple at this distance; getMinMaxPerComponent the least and greatest value of each component. The search always ends and throws for the numbers of components that are not managed.", "quantifier": "all arrays of 1 to 3 components, any number of tuples", "why_tests_cant": "the search enlarges its radius until a point is found: all densities and positions", "anchors": ["src/MEDCoupling/MEDCouplingMemArray.cxx: findClosestTupleId, FindClosestTupleIdAlg, minimalDistanceTo, distanceToTuple, getMinMaxPerComponent", "src/INTERP_KERNEL/BBTreePts.txx: getElementsAroundPoint2"]}
{"id": "C62", "title": "Borders, edges and orientation of the models of cells", "statement": "The sons of a 3D cell are 2D cells on its nodes that make a closed surface: each edge of a face is run along the other way by exactly one other face; its edges are those of its faces, each once; the sons of a 2D cell are the edges of its ring of nodes; micro edges are the halves of the quadratic edges; a polyhedron gives back its faces, and its edges each once. The linear type of a quadratic one has the same borders without middles; the extruded cell has the cell as first face and its translated copy, turned over, as second one. Changing or inverting the orientation keeps the nodes, turns over each border and gives the cell back when done twice; the orientation status tells whether two linear cells run along the same ring the same way, the other way, or are not the same.", "quantifier": "all the types of cells and all connectivities, of any length for polygons, quadratic polygons and polyhedra", "why_tests_cant": "every type, every connectivity, every number of faces and of nodes by face", "anchors": ["src/INTERP_KERNEL/CellModel.cxx: CellModel, getNumberOfSons2, fillSonCellNodalConnectivity2, fillSonEdgesNodalConnectivity3D, fillMicroEdgeNodalConnectivity, computeAllEdgesForPolyhedron, changeOrientationOf2D, changeOrientationOf1D, getOrientationStatus", "src/INTERP_KERNEL/CellModel.hxx: buildExtruded", "src/INTERP_KERNEL/OrientationInverter.cxx"]}
{"id": "C63", "title": "Unstructured meshes built cell by cell are what was inserted, and the checks decide validity", "statement": "After allocateCells and any sequence of insertNextCell, the mesh has exactly the inserted cells, in order, with their types and nodes, and its set of types is that of its cells; insertNextCell throws exactly when the type is unknown, has not the mesh dimension or has not the given number of nodes, and changes nothing then. checkConsistency accepts exactly the meshes whose cells have known types of the mesh dimension, the right number of nodes, and node ids in the coordinates (or separators in polyhedra); checkGeomConsistency in addition refuses repeated nodes in a cell.", "quantifier": "all meshes, sequences of insertions, types, connectivities, numbers of nodes", "why_tests_cant": "all histories of insertions and all connectivities", "anchors": ["src/MEDCoupling/MEDCouplingUMesh.cxx: allocateCells, insertNextCell, setConnectivity, checkConsistencyLight, checkConsistency, checkGeomConsistency, getNumberOfCells"]}
{"id": "C64", "title": "Nodes of an unstructured mesh: in use, renumbered, zipped, merged, duplicated", "statement": "computeFetchedNodeIds gives the nodes of the cells in ascending order, each once; getNodeIdsInUse their ranks and -1 for the others. Renumbering (array, offset, map) changes the nodes of each cell and nothing else; with coordinates each new node lies where an old one sent to it was (or at the barycenter). zipCoordsTraducer removes exactly the nodes without a cell, keeps the order and the position of the others. mergeNodes unites exactly the nodes near one another when nearness is transitive on them, and moves no node by more than the precision. duplicateNodes appends a copy of each listed node and puts the cells on the copies.", "quantifier": "all meshes, numberings, precisions, lists of nodes", "why_tests_cant": "all connectivities, coordinates and numberings", "anchors": ["src/MEDCoupling/MEDCouplingUMesh.cxx: computeFetchedNodeIds, computeNodeIdsAlg, getNodeIdsInUse, renumberNodesInConn, renumberNodesWithOffsetInConn, duplicateNodes, duplicateNodesInConn", "src/MEDCoupling/MEDCouplingPointSet.cxx: renumberNodes, renumberNodesCenter, zipCoordsTraducer, buildPermArrayForMergeNode, mergeNodes, mergeNodesCenter, duplicateNodesInCoords, areAllNodesFetched"]}
{"id": "C65", "title": "Cells of the nodes of an unstructured mesh", "statement": "getReverseNodalConnectivity lists for each node, in ascending order, the cells that have it, a cell as many times as it has the node. getCellIdsLyingOnNodes gives, in ascending order and each once, exactly the cells with all (fullyIn) or at least one of their nodes in the given list. computeNbOfNodesPerCell and computeEffectiveNbOfNodesPerCell give the number of nodes and of distinct nodes of each cell, separators of polyhedra excluded.", "quantifier": "all meshes with cells of any type, all lists of nodes", "why_tests_cant": "all connectivities and lists of nodes", "anchors": ["src/MEDCoupling/MEDCouplingUMesh.cxx: getReverseNodalConnectivity, computeNbOfNodesPerCell, computeEffectiveNbOfNodesPerCell", "src/MEDCoupling/MEDCouplingUMesh_internal.cxx: fillCellIdsToKeepFromNodeIds"]}
{"id": "C66", "title": "Selection and numbering of the cells of an unstructured mesh", "statement": "buildPartOfMySelf with the coordinates kept gives exactly the listed cells (or those of the slice), in the listed order with repetitions, with the set of their types, and throws exactly when one of the ids is not a cell. renumberCells with a permutation puts each cell at its new place; with check it accepts any distinct values and sorts the cells by them, and throws when a value is repeated.", "quantifier": "all meshes, lists of cells, slices, numberings", "why_tests_cant": "all meshes and lists of ids", "anchors": ["src/MEDCoupling/MEDCouplingUMesh_internal.cxx: buildPartOfMySelfKeepCoords, buildPartOfMySelfKeepCoordsSlice", "src/MEDCoupling/MEDCouplingUMesh.cxx: renumberCells, setConnectivity"]}
{"id": "C67", "title": "Equal cells: the groups found are exactly the classes of the policy, and removal, fusion and inclusion follow them", "statement": "For each policy of comparison (same nodes in the same order; same type and nodes turned; same type and set of nodes; same set of nodes), findCommonCells returns groups such that two different cells are in one group if and only if they are equal for the policy and equal to a cell of rank at least startCellId; the groups are disjoint and in ascending order. zipConnectivityTraducer leaves one cell of each class, with an array old to new whose values are 0..K-1 in the order of the first occurrences. MergeUMeshesOnSameCoords has the cells of all the meshes in order; FuseUMeshesOnSameCoords takes equal cells of all of them as one and gives one array old to new per mesh. areCellsIncludedIn answers true if and only if each cell of the other mesh is equal to one of the mesh, and gives the id of such a cell, an id out of the mesh for the cells not found.", "quantifier": "all meshes, all numbers of cells and nodes, all policies, all ids where the search begins, all lists of meshes", "why_tests_cant": "the search goes through intersections of the lists of cells of the nodes, with marks, swaps and early exits that depend on all the cells together; tests compare a few small meshes", "anchors": ["src/MEDCoupling/MEDCouplingUMesh.cxx: findCommonCells, FindCommonCellsAlg, FindCommonCellsAlgPrivate, areCellsIncludedIn, areCellsIncludedInPolicy7, MergeUMeshesOnSameCoords, FuseUMeshesOnSameCoords, buildPartOfMySelf", "src/MEDCoupling/MEDCouplingUMesh_internal.cxx: AreCellsEqual, AreCellsEqualPolicy0/1/2/2NoType/7/8/9, AreCellsEqualInPool", "src/MEDCoupling/MEDCouplingPointSet.cxx: zipConnectivityTraducer"]}
{"id": "C68", "title": "Descending connectivity: every different face (or edge) once, the sons of each cell and the cells of each son", "statement": "buildDescendingConnectivity of a mesh of dimension 1 to 3 returns a mesh of dimension one less on the same coordinates that holds each different son (face, edge or point) of the cells exactly once, as it appears first and in the order of first appearance; desc/descIndx give for each cell the ranks of its sons in the order of the cell; revDesc/revDescIndx give for each son the cells that have it, ascending. buildDescendingConnectivity2 gives the same with ranks from 1, positive if and only if the cell sees the son as it is stored and negative otherwise. explode3DMeshTo1D does it for the edges of 3D cells, explodeMeshIntoMicroEdges for the halves of the edges of 2D quadratic cells.", "quantifier": "all meshes, all numbers of cells and nodes, all types of cells (polygons, polyhedra included), any mix of them", "why_tests_cant": "the fusion of the sons goes through the reverse nodal connectivity, a search of common cells, two renumberings and a second sweep; a wrong case needs a special incidence of cells", "anchors": ["src/MEDCoupling/MEDCouplingUMesh.cxx: buildDescendingConnectivity, buildDescendingConnectivity2, explode3DMeshTo1D, explodeMeshIntoMicroEdges", "src/MEDCoupling/MEDCouplingUMesh_internal.hxx: buildDescendingConnectivityGen, buildDescendingConnectivityNoFuseGen, MinusOneSonsGenerator, MinusTwoSonsGenerator, MicroEdgesGenerator2D", "src/MEDCoupling/MEDCouplingUMesh_internal.cxx: MEDCouplingFastNbrer, MEDCouplingOrientationSensitiveNbrer"]}
{"id": "C69", "title": "Neighbours of the cells and boundary of a mesh are those of the shared faces", "statement": "computeNeighborsOfCells gives for each cell, son by son in the order of the cell, the other cells with a son on the same nodes, ascending; ComputeNeighborsOfCellsAdv does it from any pair of descending arrays. computeCellNeighborhoodFromNodesOne gives for each cell the ascending set, the cell apart, of the identifiers attached to its nodes. computeSkin (and buildBoundaryMesh) is the mesh of the sons that belong to one cell only, once, in order; findBoundaryNodes is the ascending list of their nodes; findCellIdsOnBoundary is the ascending list of the cells with such a son.", "quantifier": "all meshes of dimension 1 to 3, all numbers of cells and nodes", "why_tests_cant": "the result depends on the incidence of all the cells together; tests look at a few small meshes", "anchors": ["src/MEDCoupling/MEDCouplingUMesh.cxx: computeNeighborsOfCells, ComputeNeighborsOfCellsAdv, computeCellNeighborhoodFromNodesOne, buildBoundaryMesh, computeSkin, findBoundaryNodes, findCellIdsOnBoundary"]}
{"id": "C70", "title": "Types of the cells of an unstructured mesh and cells sorted by type", "statement": "giveCellsWithType, getNumberOfCellsWithType and keepCellIdsByType give exactly the cells of the type asked; checkConsecutiveCellTypes is true exactly when the cells of each type follow one another, checkConsecutiveCellTypesAndOrder and checkConsecutiveCellTypesForMEDFileFrmt exactly when moreover the types listed come in the order given; getRenumArrForConsecutiveCellTypesSpec, sortCellsInMEDFileFrmt and rearrange2ConsecutiveCellTypes give a permutation that puts the cells of each type together, in the order of types asked (or of first appearance), cells of a same type keeping their order, and the renumbered mesh holds the same cells; splitByType cuts the mesh exactly where the type changes.", "quantifier": "all unstructured meshes of any number of cells of any types, all orders of types, all lists of cells", "why_tests_cant": "the result depends on the whole sequence of types; tests only try a few sequences, and the sequences for which rearrange2ConsecutiveCellTypes never ends are not among them", "anchors": ["src/MEDCoupling/MEDCouplingUMesh.cxx: giveCellsWithType, getNumberOfCellsWithType, keepCellIdsByType, checkConsecutiveCellTypes, checkConsecutiveCellTypesAndOrder, checkConsecutiveCellTypesForMEDFileFrmt, getLevArrPerCellTypes, getRenumArrForConsecutiveCellTypesSpec, getRenumArrForMEDFileFrmt, sortCellsInMEDFileFrmt, rearrange2ConsecutiveCellTypes, splitByType"]}
{"id": "C71", "title": "Numbers of cells per type and profiles split type by type", "statement": "On a mesh whose cells are grouped by type getDistributionOfTypes gives the types in order with the number of cells of each, and throws on other meshes; convertCellArrayPerGeoType gives the rank of each cell among those of its type; keepSpecifiedCells keeps the listed cells of the type and all the others; splitByValueRange gives the slot of each value and its distance to the lower bound; splitProfilePerType gives type by type the entries of the profile and the ranks of their cells inside the type, throws exactly when the mesh is empty or not grouped by type or a value is not a cell; checkTypeConsistencyAndContig gives the cells that a code and its profiles describe, so that a profile that was split is found again sorted by type.", "quantifier": "all meshes, all profiles, all codes with correct numbers of cells whose types come in the order of the mesh", "why_tests_cant": "the code, the profiles per type and the ranks must agree for every profile; tests try a few", "anchors": ["src/MEDCoupling/MEDCouplingUMesh.cxx: getDistributionOfTypes, checkTypeConsistencyAndContig, splitProfilePerType, convertCellArrayPerGeoType, keepSpecifiedCells", "src/MEDCoupling/MEDCouplingMemArray.txx: splitByValueRange"]}
{"id": "C72", "title": "Zones of cells: spread from seeds and partition", "statement": "ComputeSpreadZoneGraduallyFromSeed gives in ascending order exactly the cells that at most the allowed number of neighbour links separates from a seed (all the reachable ones with the limit -1), counts one peel for each distance at which there is a cell up to the limit, and throws on a seed that is no cell; ComputeSpreadZoneGradually gives all the cells exactly when all are reachable from cell 0; PartitionBySpreadZone puts each cell in exactly one zone, with links that go both ways two cells are in the same zone exactly when links lead from one to the other, and the zones come in the order of their first cells; partitionBySpreadZone gives the same for the cells of a mesh linked by common faces, edges or nodes. Negative neighbours are ignored.", "quantifier": "all indexed arrays of links, all seeds, all limits, all meshes of dimension 1 to 3", "why_tests_cant": "connectivity is a property of all paths of any length; tests have a few small graphs", "anchors": ["src/MEDCoupling/MEDCouplingUMesh_internal.cxx: ComputeSpreadZoneGraduallyFromSeedAlg", "src/MEDCoupling/MEDCouplingUMesh.cxx: ComputeSpreadZoneGraduallyFromSeed, ComputeSpreadZoneGradually, PartitionBySpreadZone, partitionBySpreadZone"]}
{"id": "C73", "title": "Neighbours of nodes", "statement": "computeNeighborsOfNodes gives for each node the other ends of the edges of cells that have it: in dimension 1 segment by segment, in dimensions 2 and 3 each one once; computeEnlargedNeighborsOfNodes gives for each node in ascending order all the other nodes of the cells that have it.", "quantifier": "all meshes of dimension 1 to 3, all cell types", "why_tests_cant": "the index arithmetic into the connectivity of edges must be right for every mixture of cell types; tests use linear meshes", "anchors": ["src/MEDCoupling/MEDCouplingUMesh.cxx: computeNeighborsOfNodes, computeEnlargedNeighborsOfNodes"]}
{"id": "C74", "title": "Merging meshes", "statement": "MergeUMeshes gives a mesh whose cells are those of the meshes one after the other, on the nodes of the meshes one after the other: no point moves and no cell changes its type or the points it lies on; PutUMeshesOnSameAggregatedCoords puts meshes on one array of coordinates the same way; MergeNodesOnUMeshesSharingSameCoords merges the close nodes in the same way in each mesh; Build0DMeshFromCoords gives one point cell for each tuple.", "quantifier": "all lists of meshes, all cells (polyhedra included), meshes without coordinates or without connectivity included", "why_tests_cant": "offsets of nodes and cells accumulate over any number of meshes and must skip the separators of faces; tests merge two or three small meshes", "anchors": ["src/MEDCoupling/MEDCouplingUMesh.cxx: MergeUMeshes, MergeUMeshesLL, PutUMeshesOnSameAggregatedCoords, MergeNodesOnUMeshesSharingSameCoords, Build0DMeshFromCoords", "src/MEDCoupling/MEDCouplingPointSet.cxx: MergeNodesArray"]}
{"id": "C75", "title": "Aggregating meshes type by type", "statement": "AggregateSortedByTypeMeshesOnSameCoords gives the cells of the meshes sorted by type in the order of MED files, the runs of cells of a same type of each mesh moved as a whole and those of a same type kept in the order of the meshes; the sizes of the runs and the ranks of their meshes are returned in the order of the result.", "quantifier": "all lists of meshes of a same dimension on the same coordinates, null pointers included", "why_tests_cant": "the chunk bookkeeping goes through a sort of representatives and a scatter by its permutation, for any number of meshes and types", "anchors": ["src/MEDCoupling/MEDCouplingUMesh.cxx: AggregateSortedByTypeMeshesOnSameCoords"]}
{"id": "C76", "title": "Gauss localizations of cells", "statement": "After any sequence of setGaussLocalizationOnType, setGaussLocalizationOnCells and clearGaussLocalizations, refused calls included, each cell has the localization given by the last correct call that covers it since the last clear, and none if there is no such call; refused calls change the localization of no cell; no localization is kept that no cell has. The queries (id of a cell, ids of a type, cells of a localization, orphan cells) agree with it. Aggregating discretizations gives each cell a localization equal to its own up to 1e-10, in the order of the cells, with no two equal localizations.", "quantifier": "all meshes of cells, all sequences of calls, all discretizations and all lists of them", "why_tests_cant": "localization ids are renumbered after each call, so an error appears only for particular histories of calls", "anchors": ["src/MEDCoupling/MEDCouplingFieldDiscretization.cxx: MEDCouplingFieldDiscretizationGauss::setGaussLocalizationOnType, setGaussLocalizationOnCells, clearGaussLocalizations, zipGaussLocalizations, getGaussLocalizationIdsOfOneType, getCellIdsHavingGaussLocalization, aggregate", "src/MEDCoupling/MEDCouplingGaussLocalization.cxx: checkConsistencyLight, isEqual, AreAlmostEqual"]}
{"id": "C77", "title": "Layout of the values of a field", "statement": "A field by cells, by Gauss points or by nodes of cells has as many tuples as the sum over the cells of the numbers of their values; the array of offsets holds the partial sums; getIJK reads the k-th value of the cell. The consistency check of an array accepts exactly the arrays with that number of tuples (and, for Gauss points, localizations that are well formed and of the type of their cell). The number of tuples expected from a description by types, with profiles, is the sum of entities times values per entity, and ill-formed descriptions are refused.", "quantifier": "all meshes of cells, all discretizations, all arrays, all descriptions and profiles", "why_tests_cant": "offsets are accumulated over cells with different numbers of values, so errors depend on the mix of cells", "anchors": ["src/MEDCoupling/MEDCouplingFieldDiscretization.cxx: getNumberOfTuples, getOffsetArr, getOffsetOfCell, getIJK, checkCoherencyBetween, getNumberOfTuplesExpectedRegardingCode of P0, P1, Gauss, GaussNE"]}
{"id": "C78", "title": "Renumbering the cells of a field", "statement": "renumberCells of a field moves each cell with its nodes, the localization of its Gauss points and its values, in each array; values on nodes stay. With the check, distinct numbers are replaced by their ranks and repeated ones refused.", "quantifier": "all fields by cells, Gauss points, nodes of cells and nodes, all permutations", "why_tests_cant": "blocks of values of different lengths are moved in place; an error shows only for some mixes of cells and permutations", "anchors": ["src/MEDCoupling/MEDCouplingFieldDiscretization.cxx: renumberArraysForCell, renumberCells", "src/MEDCoupling/MEDCouplingFieldT.txx: renumberCells, renumberCellsWithoutMesh"]}
{"id": "C79", "title": "Part of a field", "statement": "buildSubPart on cell ids gives the field on these cells, in this order, each with its nodes, localization and values; for values on nodes, the nodes of these cells in the same order with coordinates and values. buildSubPartRange gives the same as buildSubPart on the ids of the range. Ids out of range are refused.", "quantifier": "all fields, all lists of ids with repetitions, all ranges with any step", "why_tests_cant": "the tuples to select depend on the numbers of values of all the previous cells", "anchors": ["src/MEDCoupling/MEDCouplingFieldDiscretization.cxx: buildSubMeshData, buildSubMeshDataRange, computeTupleIdsToSelectFromCellIds", "src/MEDCoupling/MEDCouplingFieldT.txx: buildSubPart, buildSubPartRange"]}
{"id": "C80", "title": "Renumbering the values by nodes", "statement": "Renumbering by an old to new array gives each new entity the tuple of the first old entity sent to it, provided the other ones are equal up to eps, and is refused otherwise; by a new to old array, the tuple of the named old entity. renumberNodes of a field on nodes renumbers mesh and values together; the values of other fields stay.", "quantifier": "all arrays, all old to new arrays (merging and dropping included), all tolerances", "why_tests_cant": "merging depends on which tuples meet and in which order", "anchors": ["src/MEDCoupling/MEDCouplingFieldDiscretization.cxx: RenumberEntitiesFromO2NArr, RenumberEntitiesFromN2OArr", "src/MEDCoupling/MEDCouplingFieldDouble.cxx: renumberNodes, renumberNodesWithoutMesh"]}
{"id": "C81", "title": "Reading the groups of a MED file mesh", "statement": "getGroupsArr and getGroupArr return in increasing order the entities of the level whose family belongs to one of the groups; an unknown group, a group naming an unknown family, and an unknown level of cells are refused; getGroupsOnSpecifiedLev names the groups having an entity on the level.", "quantifier": "all meshes, levels, families, groups, family fields", "why_tests_cant": "the answer depends on two maps of any size and on the values of the family fields", "anchors": ["src/MEDLoader/MEDFileMesh.cxx: getGroupsArr, getGroupArr, getFamiliesArr, getFamiliesIds, getFamiliesIdsOnGroup, getGroupsOnSpecifiedLev"]}
{"id": "C82", "title": "Adding groups to a MED file mesh", "statement": "On a mesh built by the edits of the API, addGroup is accepted exactly when the level exists, the ids are in range and increasing, the name is not empty and the group has no entity on the level; the new group then contains exactly these entities, and no other group changes on any level. After any history of addGroup, removeGroup, changeGroupName, removeGroupAtLevel, changeFamilyName, rearrangeFamilies the contents of the groups are those described by the history.", "quantifier": "all histories of edits, all meshes, levels, groups and ids", "why_tests_cant": "adding a group splits families shared by other groups: the effect depends on the whole history", "anchors": ["src/MEDLoader/MEDFileMesh.cxx: addGroup, addGroupUnderground, CreateNameNotIn, getMaxAbsFamilyIdInArrays, changeFamilyId, addFamilyOnAllGroupsHaving"]}
{"id": "C83", "title": "addGroup keeps the other groups on every mesh of the API", "statement": "addGroup leaves the contents of the other groups unchanged on every mesh obtained by public calls.", "quantifier": "all meshes obtained by public calls", "why_tests_cant": "it must hold after any history", "anchors": ["src/MEDLoader/MEDFileMesh.cxx: addGroupUnderground, getMaxAbsFamilyIdInArrays, createGroupOnAll, removeFamiliesReferedByNoGroups"]}
{"id": "C84", "title": "Edits of families and groups", "statement": "removeGroup, removeGroupAtLevel, changeGroupName, changeFamilyName, removeFamily, changeFamilyId and createGroupOnAll change the contents of exactly the groups they name, in the way they announce.", "quantifier": "all meshes, names, ids and levels", "why_tests_cant": "each edit must keep two maps and several fields consistent", "anchors": ["src/MEDLoader/MEDFileMesh.cxx: removeGroup, removeGroupAtLevel, changeGroupName, changeFamilyName, removeFamily, changeFamilyId, createGroupOnAll, setGroupsOnFamily"]}
{"id": "C85", "title": "Cleaning of families", "statement": "removeOrphanFamilies removes exactly the families whose id is in no field, removeFamiliesReferedByNoGroups exactly those of no group, rearrangeFamilies both, and the ids without group become 0; the contents of the groups never change.", "quantifier": "all meshes", "why_tests_cant": "a universal statement over maps and fields of any size", "anchors": ["src/MEDLoader/MEDFileMesh.cxx: removeOrphanFamilies, removeFamiliesReferedByNoGroups, rearrangeFamilies, getAllFamiliesIdsReferenced"]}
{"id": "C86", "title": "Merging families of the same groups", "statement": "zipFamilies leaves no two families in exactly the same groups, keeps every group, the entities of every group on every level, the names and ids of the families that stay, and refuses a mesh where the zero family is in a group.", "quantifier": "all meshes whose families have different ids", "why_tests_cant": "a universal statement over maps, groups and fields of any size", "anchors": ["src/MEDLoader/MEDFileMesh.cxx: MEDFileMesh::zipFamilies"]}
{"id": "C87", "title": "Numbering of families", "statement": "After normalizeFamIdsMEDFile the ids on nodes are positive, those on cells negative, no id is on two levels, and every group keeps its entities; after normalizeFamIdsTrio ids are positive on cells, negative on faces, 0 elsewhere, and the groups of cells and faces keep their entities; ensureDifferentFamIdsPerLevel and keepFamIdsOnlyOnLevs separate levels without changing groups.", "quantifier": "all meshes whose grouped families are each used on one level", "why_tests_cant": "a universal statement over maps and fields of any size", "anchors": ["src/MEDLoader/MEDFileMesh.cxx: MEDFileMesh::normalizeFamIdsMEDFile", "src/MEDLoader/MEDFileMesh.cxx: MEDFileMesh::normalizeFamIdsTrio", "src/MEDLoader/MEDFileMesh.cxx: MEDFileMesh::ensureDifferentFamIdsPerLevel", "src/MEDLoader/MEDFileMesh.cxx: MEDFileMesh::keepFamIdsOnlyOnLevs"]}
{"id": "C88", "title": "Groups of a level set at once; names of families", "statement": "setGroupsAtLevel gives on its level exactly the given groups with the given entities and changes no group on another level; it refuses repeated or empty names, unknown levels and ids out of range. assignFamilyNameWithGroupName renames exactly the families alone in their only group, and changes no content.", "quantifier": "all meshes reached by edits, all lists of groups", "why_tests_cant": "a universal statement over maps, groups and fields of any size", "anchors": ["src/MEDLoader/MEDFileMesh.cxx: MEDFileMesh::setGroupsAtLevel", "src/MEDLoader/MEDFileMesh.cxx: MEDFileMesh::assignFamilyNameWithGroupName", "src/MEDLoader/MEDFileMesh.cxx: MEDFileMesh::AppendFamilyEntries"]}
{"id": "C89", "title": "Sharing of interpolation work between processes", "statement": "When n processes share the interpolation of overlapping meshes, each pair (source process, target process) whose bounding boxes meet is given to exactly one process, which is one of the two, for each of the three sharing algorithms; the computation terminates; an unknown algorithm is refused; every process sends its source field once to each target it interacts with and to no other.", "quantifier": "all numbers of processes, all interaction relations between their boxes, the three algorithms", "why_tests_cant": "a universal statement over relations on any number of processes, with a loop whose end must be shown", "anchors": ["src/ParaMEDMEM/OverlapElementLocator.cxx: OverlapElementLocator::computeTodoList_original", "src/ParaMEDMEM/OverlapElementLocator.cxx: OverlapElementLocator::computeTodoList_new", "src/ParaMEDMEM/OverlapElementLocator.cxx: OverlapElementLocator::fillProcToSend"]}
{"id": "C90", "title": "Exchange of meshes between processes cannot block", "statement": "The exchange of meshes of the overlap locator ends under every schedule, whether MPI stores sent messages or makes a send wait for its receive: in every reachable state it is over or some process can go on; every receive gets the part it expects of the mesh it expects; at the end every process has received, once, every part of every mesh its pairs need, and nothing else.", "quantifier": "all numbers of processes, all sharings of the pairs, all schedules, all choices of storing messages", "why_tests_cant": "deadlock depends on the schedule and on the buffering of MPI, of which a test run shows one", "anchors": ["src/ParaMEDMEM/OverlapElementLocator.cxx: OverlapElementLocator::exchangeMeshes", "src/ParaMEDMEM/OverlapElementLocator.cxx: OverlapElementLocator::sendMesh", "src/ParaMEDMEM/OverlapElementLocator.cxx: OverlapElementLocator::receiveMesh"]}
{"id": "C91", "title": "Transfer of a field between two distributions of the same elements", "statement": "The transfer gives, on every process of the target, each of its elements the value that element had on the process of the source that owns it, whatever the two distributions; arrays keep their sizes; distributions of different numbers of elements are refused.", "quantifier": "all pairs of block distributions (grids, counts per process, distributed components) over two groups that share the world, all values", "why_tests_cant": "tests run a few fixed splits on a few processes; here any two splits and any values", "anchors": ["src/ParaMEDMEM/StructuredCoincidentDEC.cxx: StructuredCoincidentDEC::synchronizeTopology, prepareSourceDE, prepareTargetDE, broadcastTopology, recvData, sendData", "src/ParaMEDMEM/BlockTopology.cxx: globalToLocal, localToGlobal, serialize"]}
{"id": "C92", "title": "Redistribution of distributed packs of ids", "statement": "After the collective redistribution, the process r has exactly the ids of its slice of [0, nb) that some process had, in increasing order; the pack of an id is the set of the values that any process had in a pack of this id, in increasing order; each id of [0, nb) that some process had is on exactly one process.", "quantifier": "all numbers of processes, all nb, all ids on all processes (repeated or not, inside or outside of [0, nb)), all packs", "why_tests_cant": "tests run on two or three processes with fixed ids; here any number of processes and any distribution", "anchors": ["src/ParaMEDMEM/ParaSkyLineArray.cxx: ParaSkyLineArray::equiRedistribute, ParaSkyLineArray", "src/ParaMEDMEM/CommInterface.hxx: allToAllArrays, allToAllArraysIndex, ComputeOffset"]}
{"id": "C93", "title": "Complement of distributed ids", "statement": "The process 0 gets exactly the ids of [0, nb) that no process has, in increasing order.", "quantifier": "all numbers of processes, all nb, all ids on all processes", "why_tests_cant": "tests run on a few processes with fixed ids", "anchors": ["src/ParaMEDMEM/ParaDataArray.txx: ParaDataArrayTemplateDiscrete::buildComplement"]}
{"id": "C94", "title": "Redistribution of a field on cells", "statement": "Each process gets, in increasing order of global id, one value for each cell that it asks for and that some process has; this value is the one that some process has for this cell. A field that has not one value per cell is refused.", "quantifier": "all numbers of processes, all global ids (a cell may be on several processes), all values, all requests", "why_tests_cant": "tests run on a few processes with fixed ids", "anchors": ["src/ParaMEDMEM/ParaUMesh.hxx: redistributeCellFieldT", "src/ParaMEDMEM/CommInterface.hxx: allGatherArrays, allToAllArrays"]}
{"id": "C95", "title": "Value of an expression", "statement": "The text of an expression is given its value: numbers, variables, brackets, functions, then powers, then products and quotients, then sums and differences, then comparisons, each level from left to right; spaces do not count; both evaluators give the same value; a text whose brackets do not match is refused.", "quantifier": "all expressions, of any depth and length, with at most ten numbers, all sets of operations of values", "why_tests_cant": "tests evaluate a few dozen fixed texts; here all texts of a grammar", "anchors": ["src/INTERP_KERNEL/ExprEval/InterpKernelExprParser.cxx: ExprParser::parse, fillValuesInExpr, ReplaceAndTraduce, checkBracketsParity, parseUnaryFunc, parseForCmp, parseForAddMin, parseForMulDiv, parseForPow, tryToInterpALeaf, simplify, replaceValues, evaluateLowLev", "src/INTERP_KERNEL/ExprEval/InterpKernelExprParser.hxx: evaluateDoubleInternal", "src/INTERP_KERNEL/ExprEval/InterpKernelFunction.cxx: FunctionsFactory::buildFuncFromString"]}
{"id": "C96", "title": "Queries on meshes with a single geometric type", "statement": "On a mesh with a single geometric type, static (same number of nodes in all the cells) or dynamic (polygons, polyhedra), the number of cells, the nodes of a cell, the consistency, the nodes in use and their new numbers, the fetched nodes, the renumbered nodes, the cells lying on nodes, the reverse connectivity, the numbers of nodes, of different nodes and of faces are those of its list of cells; nodes outside the mesh are refused.", "quantifier": "all lists of cells of a type, all connectivities holding them (with or without unused parts for the dynamic types), all coordinates, all numberings, all sets of nodes", "why_tests_cant": "tests use a few meshes of a few cells, most of them without unused parts in the connectivity", "anchors": ["src/MEDCoupling/MEDCoupling1GTUMesh.cxx: MEDCoupling1SGTUMesh::getNumberOfCells, getNodeIdsOfCell, checkConsistency, computeEffectiveNbOfNodesPerCell, computeFetchedNodeIds, getNodeIdsInUse, renumberNodesWithOffsetInConn, renumberNodesInConn, fillCellIdsToKeepFromNodeIds, getReverseNodalConnectivity", "src/MEDCoupling/MEDCoupling1GTUMesh.cxx: MEDCoupling1DGTUMesh::checkConsistencyOfConnectivity, checkConsistency, getNodeIdsOfCell, getNumberOfNodesInCell, computeNbOfNodesPerCell, computeNbOfFacesPerCell, computeEffectiveNbOfNodesPerCell, computeFetchedNodeIds, getNodeIdsInUse, renumberNodesInConn, fillCellIdsToKeepFromNodeIds, getReverseNodalConnectivity", "src/MEDCoupling/MEDCoupling1GTUMesh.txx: renumberNodesInConnT"]}
{"id": "C97", "title": "Conversions of meshes with a single geometric type", "statement": "Building a mesh with a single geometric type from a mesh of the general class is accepted exactly when all the cells have one type of the class (with the number of nodes of this type when it is static), and gives the same cells on the same nodes; the conversion to the general class gives the same cells, nodes, dimension and types; there and back gives the same object; several such meshes on the same nodes are aggregated in the order of the list, different dimensions or different nodes being refused.", "quantifier": "all lists of cells, all types, all general meshes storing them, all lists of meshes of both classes", "why_tests_cant": "tests convert a few meshes; the refusals depend on the position of the bad cell and the contents on all the lengths", "anchors": ["src/MEDCoupling/MEDCoupling1GTUMesh.cxx: MEDCoupling1SGTUMesh::New(const MEDCouplingUMesh *), buildUnstructured", "src/MEDCoupling/MEDCoupling1GTUMesh.cxx: MEDCoupling1DGTUMesh::New(const MEDCouplingUMesh *), buildUnstructured", "src/MEDCoupling/MEDCoupling1GTUMesh.cxx: MEDCoupling1GTUMesh::New, AggregateOnSameCoordsToUMesh"]}
{"id": "C98", "title": "Cells of meshes with a single geometric type: parts, order, insertion, merge", "statement": "A part given by ids or by a range holds these cells in this order, and an id out of the mesh is refused; renumbering moves cell i to its new place, or sorts the cells by the given values when the check is asked, a value given twice being refused; an inserted cell is the last one; the packed copy holds the same cells and the test of packing tells whether the copy is needed; the merge holds the cells of the meshes one after the other on the nodes of the meshes one after the other, different types or dimensions being refused; a polygon is built from its parts given in any order.", "quantifier": "all meshes of both classes, all lists of ids, ranges and permutations, all lists of meshes, all lists of parts", "why_tests_cant": "the results depend on all the lengths of the cells and on the position of the index in the connectivity; tests use a few meshes, packed ones mostly", "anchors": ["src/MEDCoupling/MEDCoupling1GTUMesh.cxx: buildPartOfMySelfKeepCoords, buildPartOfMySelfKeepCoordsSlice, renumberCells, allocateCells, insertNextCell (both classes)", "src/MEDCoupling/MEDCoupling1GTUMesh.cxx: MEDCoupling1DGTUMesh::isPacked, retrievePackedNodalConnectivity, copyWithNodalConnectivityPacked", "src/MEDCoupling/MEDCoupling1GTUMesh.cxx: Merge1SGTUMeshes, Merge1DGTUMeshes, AggregateNodalConnAndShiftNodeIds, buildSetInstanceFromThis", "src/MEDCoupling/MEDCoupling1GTUMesh.cxx: MEDCoupling1DGTUMesh::BuildAPolygonFromParts"]}
{"id": "C99", "title": "Definition of fields along the time", "statement": "The definition of the time of a sequence of fields is built exactly when every field gives a slice of time (an instant, an interval where it is constant, an interval where it is linear) and the slices ascend up to the tolerance; at a time it answers the mesh, the array and the field of each slice that holds it, from left to right, and refuses a time held by no slice, by more than two, or strictly inside a linear slice; the remarkable times are times of the slices, cover them all up to the tolerance, ascend and are all answered; two definitions are equal when their slices are, up to the tolerance; what is serialized gives the same definition back.", "quantifier": "all sequences of fields, all slices, all tolerances and times (rational numbers), all pairs of definitions", "why_tests_cant": "the answers depend on every pair of neighbour slices and on the position of the time with respect to the tolerance; tests use three or four slices", "anchors": ["src/MEDCoupling/MEDCouplingDefinitionTime.cxx: MEDCouplingDefinitionTimeSlice, MEDCouplingDefinitionTimeSliceInst, MEDCouplingDefinitionTimeSliceCstOnTI, MEDCouplingDefinitionTimeSliceLT", "src/MEDCoupling/MEDCouplingDefinitionTime.cxx: MEDCouplingDefinitionTime, isEqual, assign, getIdsOnTime, getIdsOnTimeRight, getIdsOnTimeLeft, getHotSpotsTime, getTinySerializationInformation, unserialize", "src/MEDCoupling/MEDCouplingFieldOverTime.cxx: checkConsistencyLight"]}
{"id": "C100", "title": "Sets of fields that share meshes and arrays", "statement": "A set of fields lists its different meshes and its different arrays, each once and in the order of the fields, with for each field the rank of what it uses; its deep copy has new meshes and arrays with the same contents, the same names, time discretizations, tolerances and steps, and shares among its fields exactly what the fields of the original share; two sets are equal when their fields are, one to one, and share meshes in the same way; what is serialized gives back, with the meshes and the arrays received in the same order, the same fields on the corresponding meshes and arrays.", "quantifier": "all sets of fields, null fields included, all contents of the memory, all numbers of meshes, arrays and steps", "why_tests_cant": "which fields share which meshes and arrays is a relation between all the pairs of fields; tests use three or four fields with one pattern of sharing", "anchors": ["src/MEDCoupling/MEDCouplingMultiFields.cxx: MEDCouplingMultiFields, getDifferentMeshes, getDifferentArrays, getMeshes, getArrays, deepCopy, isEqual, getTinySerializationInformation, finishUnserialization, getFieldWithId, getFieldAtPos, getTimeResolution", "src/MEDCoupling/MEDCouplingTimeDiscretization.cxx: getTinySerializationIntInformation2, getTinySerializationDbleInformation2, finishUnserialization2", "src/MEDCoupling/MEDCouplingFieldTemplate.cxx: New"]}
{"id": "C101", "title": "Order of the cells of a line", "statement": "orderConsecutiveCells1D, called on a mesh of dimension 1 whose nodes are each in two cells at most, gives every cell once. The result is made of parts; in a part each cell has an end in common with the next one, and a cell of a part touches no cell of another part, so a connected line (closed or not) comes as one row. A node in three cells, or a mesh of another dimension, is refused. The values never go past the end of the array.", "quantifier": "every mesh of segments (linear, quadratic, cubic) of any size, in any order and any direction, with any number of open and closed parts", "why_tests_cant": "The walk goes both ways from any cell, stops on an end, on a closed part or when no cell is left: the cases depend on the order of the cells and on their number, and a test sees a few lines.", "anchors": ["src/MEDCoupling/MEDCouplingUMesh.cxx: MEDCouplingUMesh::orderConsecutiveCells1D"]}
{"id": "C102", "title": "Product and inverse of matrices", "statement": "inverseMatrix gives the inverse of every square matrix that has one, whatever exchanges of rows are needed, and what it gives is always an inverse on both sides. matrixProduct gives the product of two matrices by rows, and refuses sizes that do not agree. A matrix without inverse should be refused.", "quantifier": "every size and all values of the matrices", "why_tests_cant": "The factorisation picks its pivots from the values and works in place with loops unrolled by five; a test inverts a few well chosen matrices.", "anchors": ["src/INTERP_KERNEL/InterpKernelMatrixTools.cxx: inverseMatrix, matrixProduct"]}
{"id": "C103", "title": "Dense matrices", "statement": "A DenseMatrix is made only on an allocated array with one component and rows * columns values. reShape keeps the values in their order, transpose gives the transposed matrix, Add, Substract, addEqual, substractEqual, Multiply and matVecMult give the sum, difference and product, refuse sizes that do not agree, and change nothing but the array of the result. After any sequence of calls on matrices that may share arrays, every matrix has the right number of values and no access is out of bounds.", "quantifier": "all shapes and values, all sequences of calls, all ways of sharing arrays between matrices (a matrix added to itself included)", "why_tests_cant": "The arrays are shared and changed in place, and a shape is kept apart from the values: what a matrix stands for depends on the whole history of the calls.", "anchors": ["src/MEDCoupling/MEDCouplingMatrix.cxx: DenseMatrix::New, reBuild, reShape, transpose, Add, Substract, addEqual, substractEqual, Multiply, MatVecMult, deepCopy, shallowCpy"]}
{"id": "C104", "title": "Degenerated cells", "statement": "convertDegeneratedCells replaces each cell by the cell it really is once its repeated nodes are merged: a cell of dimension 2 loses its null edges and no other one, a solid keeps exactly the faces that still have three nodes, in the same sense, and a cell whose nodes are all different is not changed. convertDegeneratedCellsAndRemoveFlatOnes also removes the flat cells and returns their ids. unPolyze gives polygons and polyhedra the usual type they have, keeps the other cells, and returns true when a type has changed. The set of types of the mesh stays right, and the coordinates are kept.", "quantifier": "all meshes of dimension 2 or 3 with any number of cells, all node numbers and all ways in which nodes are repeated in a cell (for solids: the linear types TETRA4, PYRA5, PENTA6, HEXA8 and the polyhedra with the faces of a usual type)", "why_tests_cant": "A cell has thousands of ways to repeat its nodes, and the connectivity is rewritten in its own buffer: what a cell becomes decides where the next ones are read and written.", "anchors": ["src/INTERP_KERNEL/InterpKernelCellSimplify.cxx: CellSimplify::simplifyDegeneratedCell, tryToUnPoly2D, tryToUnPoly3D, getFullPolyh3DCell, tryToUnPolyHex8, tryToUnPolyHexp12, tryToUnPolyPenta6, tryToUnPolyPyra5, tryToUnPolyTetra4, isFlatCell", "src/MEDCoupling/MEDCouplingUMesh.cxx: convertDegeneratedCells, convertDegeneratedCellsAndRemoveFlatOnes, unPolyze"]}
{"id": "C105", "title": "Cells cut into simplices, made polygons or polyhedra, or made linear", "statement": "simplexize cuts each quadrangle along the diagonal of the policy into two triangles, or each hexahedron into five or six tetrahedra, so that the pieces have the border of the cell (each face cut by a diagonal) and meet inside only; the other cells stay and the result gives for each new cell the id of the cell it comes from. removeDegenerated1DCells removes the segments whose two ends are the same node and no other one, and tells whether there was one. convertQuadraticCellsToLinear replaces each quadratic cell by the linear cell with its corners. convertToPolyTypes makes the cells of the given ids polygons with the same nodes or polyhedra with the same faces, keeps the others and refuses an id out of the mesh; convertAllToPoly does it for all the cells, and unPolyze then gives the mesh back. The set of types stays right and the coordinates are kept.", "quantifier": "all meshes with any number of cells and all node numbers (cells with the number of nodes of their type), all lists of ids, repeated or not, and all policies", "why_tests_cant": "The connectivity is rebuilt from cells of any mix of types and sizes, in arrays whose sizes are computed before; a wrong count shows only for some mix, and a wrong place in a table only for some cells.", "anchors": ["src/MEDCoupling/MEDCouplingUMesh.cxx: simplexize, removeDegenerated1DCells, convertToPolyTypes, convertAllToPoly, convertQuadraticCellsToLinear", "src/MEDCoupling/MEDCouplingUMesh_internal.cxx: simplexizePol0, simplexizePol1, simplexizePlanarFace5, simplexizePlanarFace6", "src/INTERP_KERNEL/SplitterTetra.hxx: SPLIT_NODES_5_WO, SPLIT_NODES_6_WO"]}
{"id": "C106", "title": "Meshes turned over, and tests of quadratic cells", "statement": "invertOrientationOfAllCells and changeOrientationOfCells give each cell the other orientation: same type, same nodes, same rank, a segment from its end to its start, and the borders of a surface or solid run along the other way; the coordinates and the set of types are kept, and applying the method again gives the mesh back exactly. changeOrientationOfCells refuses a mesh that is not of dimension 1 or 2. isFullyQuadratic tells whether all the cells are quadratic, isPresenceOfQuadratic whether at least one is.", "quantifier": "all meshes with any number of cells of any mix of types and all node numbers (cells with the number of nodes of their type)", "why_tests_cant": "The cells are rewritten in place in one array, type by type; a wrong bound spoils a neighbour only for some mix of types and some order of the cells.", "anchors": ["src/MEDCoupling/MEDCouplingUMesh.cxx: invertOrientationOfAllCells, changeOrientationOfCells, isFullyQuadratic, isPresenceOfQuadratic", "src/INTERP_KERNEL/CellModel.cxx: changeOrientationOf2D, changeOrientationOf1D", "src/INTERP_KERNEL/OrientationInverter.cxx"]}
{"id": "C107", "title": "Connectivity of a mesh of one type, types of a mesh and nodes of a cell", "statement": "On a mesh whose cells have one static type, convertNodalConnectivityToStaticGeoTypeMesh gives the nodes of the cells one after the other, without the types; it refuses a mesh without cell, with two types, with a dynamic type, or with a cell whose number of nodes is not the one of its type. convertNodalConnectivityToDynamicGeoTypeMesh gives the nodes and their index for a mesh of one type, and refuses two types and a cell without node. getAllGeoTypesSorted gives the types in the order of the cells, one for each run of cells of the same type. getTypesOfPart gives the types of the cells with the given ids, each once. getNumberOfNodesInCell counts the nodes of a cell, the separators of a polyhedron left out.", "quantifier": "all meshes with any number of cells of any mix of types and sizes, all node numbers and all lists of ids in the mesh", "why_tests_cant": "The sizes of the results are computed before the cells are read; a wrong size or start shows only for some sizes of cells, and a wrong run only for some order of the types.", "anchors": ["src/MEDCoupling/MEDCouplingUMesh.cxx: convertNodalConnectivityToStaticGeoTypeMesh, convertNodalConnectivityToDynamicGeoTypeMesh, getAllGeoTypesSorted, getTypesOfPart, getNumberOfNodesInCell"]}
{"id": "C108", "title": "Cells of a mesh replaced by those of another mesh", "statement": "setPartOfMySelf, and setPartOfMySelfSlice with a range of ids, replaces the cell of the k-th given id by the k-th cell of the other mesh, whatever their types and sizes; the cells not given, the coordinates and the dimension are kept, and the set of types is the one of the new cells. It refuses other coordinates, another dimension, a number of ids that is not the number of cells of the other mesh, and an id out of the mesh.", "quantifier": "all pairs of meshes with any number of cells of any types and sizes, and all lists of ids", "why_tests_cant": "Two algorithms are chosen by the sizes met, in place or with new arrays; an error in the choice or in the size of the new arrays shows only for some sizes and orders of ids.", "anchors": ["src/MEDCoupling/MEDCouplingUMesh.cxx: setPartOfMySelf, setPartOfMySelfSlice", "src/MEDCoupling/MEDCouplingMemArray.txx: SetPartOfIndexedArrays, SetPartOfIndexedArraysSameIdx"]}
