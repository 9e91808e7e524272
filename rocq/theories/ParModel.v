(** ParaMEDMEM: data distributed over the processes 0 … N-1, exchanged by collective calls.
    A list holds, for each process, its data.  A process that throws leaves the others waiting; the model throws.
    All arrays of ids have one component.  A tuple of a field is one element (allToAllArrays multiplies all sizes by the number of components).
    The sizes are int in ToIntArray and std::accumulate: this is not modelled. *)
From Verif Require Import Base DataArray StdModel SlicesModel RenumModel IndexModel LayoutModel SearchModel SetsModel SkyModel BlkModel DecModel.

Definition sum (l : list Z) : Z := foldl Z.add 0 l.
Definition aggregate {A} (l : list (list A)) : res (list A) := let* d := Aggregate ((fun x => Some (vec x)) <$> l) in initialised (da_vals d).
Definition select {A} (l : list A) (ids : list Z) : res (list A) := let* d := mySelectByTupleIdSafe (vec l) ids in initialised (da_vals d).
(** CommInterface.hxx 504-588: [sent] at [p] at [r] is the array the process [p] sends to [r].  ComputeOffset, 621-631, is [starts]. *)
Definition allToAllArrays {A} (sent : list (list (list A))) : res (list (list (list A))) :=
  let N := zlen sent in
  let* senders := collect N (fun p =>
    let* s := rd sent p in
    throw_if negb (zlen s =? N) >>>
    let counts := zlen <$> s in
    let* displs := starts N counts in
    let* acc := aggregate s in
    Ok (counts, displs, Some <$> acc)) in
  collect N (fun w =>
    let* counts := collect N (fun p => let* s := rd senders p in rd s.1.1 w) in
    let* displs := starts N counts in
    let* rb := allToAllV N w senders (sum counts) counts displs in
    collect N (fun i => let* o := rd displs i in let* c := rd counts i in let* b := saveBlock rb o (o + c) in initialised b)).
(** Lines 433-462: the arrays of all the processes and the places where they begin; then each process takes the array of [r]. *)
Definition allGatherArrays {A} (arrays : list (list A)) (r : Z) : res (list A) :=
  let N := zlen arrays in
  let* index := starts (N + 1) (zlen <$> arrays) in
  let all := concat arrays in
  let* o := rd index r in let* e := rd index (r + 1) in saveBlock all o e.
(** The ids that a process has among those of the slice [r] of [0, nb): ParaSkyLineArray.cxx 96-99, ParaDataArray.txx 87-90. *)
Definition captured (N nb : Z) (ids : list Z) (r : Z) : res (list Z) :=
  let* (b, e) := GetSlice 0 nb 1 r N in findIdsInRange b e (vec ids).
(** The ids received, sorted; where each was; where the groups of equal ids begin: ParaSkyLineArray.cxx 137-157, ParaUMesh.cxx 382-400, ParaUMesh.hxx 117-130. *)
Definition ordering (l : list Z) : res (list Z * list Z * list Z) :=
  let sorted := sort l in
  let* p := FindPermutationFromFirstToSecondDuplicate (Some (vec sorted)) (Some (vec l)) in
  let* p := initialised p in
  let* b := indexOfSameConsecutiveValueGroups (vec sorted) in
  Ok (sorted, p, b).
(** [begin() … end()-1]. *)
Definition butLast {A} (l : list A) : list A := take (length l - 1) l.

(** ParaSkyLineArray.cxx 60-72: the constructor. *)
Definition newPara (s : sky) (ids : list Z) : res (list Z * sky) := throw_if negb (zlen (s_index s) - 1 =? zlen ids) >>> Ok (ids, s).
(** ParaSkyLineArray.cxx 85-161. *)
Definition equiRedistribute (world : list (list Z * sky)) (nb : Z) : res (list (list Z * sky)) :=
  let N := zlen world in
  let* parts := collect N (fun p =>
    let* (ids, s) := rd world p in
    collect N (fun r =>
      let* inside := captured N nb ids r in
      let* cap := select ids inside in
      let* (v, i) := ExtractFromIndexedArrays inside (Some (vec (s_values s))) (Some (vec (s_index s))) in
      let* v := initialised v in let* i := initialised i in
      Ok (cap, i, v))) in
  let* rids := allToAllArrays ((fun l : list (list Z * list Z * list Z) => (fun x => x.1.1) <$> l) <$> parts) in
  let* rindex := allToAllArrays ((fun l : list (list Z * list Z * list Z) => (fun x => x.1.2) <$> l) <$> parts) in
  let* rvalues := allToAllArrays ((fun l : list (list Z * list Z * list Z) => (fun x => x.2) <$> l) <$> parts) in
  collect N (fun r =>
    let* x := rd rids r in let* ids := aggregate x in
    let* x := rd rindex r in let* index := AggregateIndexes ((fun x => Some (vec x)) <$> x) in let* index := initialised index in
    let* x := rd rvalues r in let* values := aggregate x in
    let* (sorted, perm, bounds) := ordering ids in
    let* (v, i) := ExtractFromIndexedArrays perm (Some (vec values)) (Some (vec index)) in
    let* v := initialised v in let* i := initialised i in
    let* gids := buildUnique (vec sorted) in
    let* s := groupPacks (Sky [] i v) (vec bounds) in
    let* s := uniqueNotSortedByPack s in
    newPara s gids).

(** ParaDataArray.txx 74-115: the result on the process 0. *)
Definition paraComplement (world : list (list Z)) (nb : Z) : res (list Z) :=
  let N := zlen world in
  let* parts := collect N (fun p =>
    let* ids := rd world p in
    collect N (fun r => let* inside := captured N nb ids r in select ids inside)) in
  let* rids := allToAllArrays parts in
  let* comps := collect N (fun r =>
    let* x := rd rids r in let* ids := aggregate x in
    let* ids := buildUnique (vec (sort ids)) in
    let* (vmin, vmax) := GetSlice 0 nb 1 r N in
    let* c := buildComplement (vmax - vmin) (vec ((fun x => x - vmin) <$> ids)) in
    let* c := initialised c in
    Ok ((fun x => x + vmin) <$> c)) in
  aggregate comps.

(** ParaUMesh.hxx 74-132: each process has cells of given global ids, with values, and asks for the cells of given global ids. *)
Definition redistributeCellField {A} (world : list (list Z * list A)) (asked : list (list Z)) : res (list (list A)) :=
  let N := zlen world in
  let* parts := collect N (fun p =>
    let* (ids, f) := rd world p in
    throw_if negb (zlen ids =? zlen f) >>>
    collect N (fun r =>
      let* a := allGatherArrays asked r in
      let* cap := buildIntersection (vec ids) (Some (vec a)) in
      let* loc := findIdForEach cap (vec ids) in let* loc := initialised loc in
      let* v := select f loc in
      Ok (cap, v))) in
  let* rids := allToAllArrays ((fun l : list (list Z * list A) => fst <$> l) <$> parts) in
  let* rvals := allToAllArrays ((fun l : list (list Z * list A) => snd <$> l) <$> parts) in
  collect N (fun r =>
    let* x := rd rids r in let* ids := aggregate x in
    let* (_, perm, bounds) := ordering ids in
    let* n2o := select perm (butLast bounds) in
    let* x := rd rvals r in let* f := aggregate x in
    select f n2o).
