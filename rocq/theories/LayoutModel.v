(** Interlacing, rearrangement, selection and juxtaposition of components, rotations and reversals. *)
From Verif Require Import Base DataArray.

(** [*w = pt[p]; w++] in a double loop over [i < n], [j < m], [pos i j] being the index read. *)
Definition fillGrid {A} (src : list A) (pos : Z -> Z -> Z) (n m : Z) (ret : list (option A)) : res (list (option A)) :=
  let* (_, ret) := forZ 0 n (fun i s => forZ 0 m (fun j '(w, ret) =>
    let* x := rd src (pos i j) in let* ret := wrc ret w x in Ok (w + 1, ret)) s) (0, ret) in
  Ok ret.

(** MemArray::fromNoInterlace, MEDCouplingMemArray.txx 337-350, called by DataArrayTemplateClassic::fromNoInterlace 3662-3671: the
    values of the array returned, which has the same number of components. *)
Definition fromNoInterlace {A} (d : da A) : res (list (option A)) :=
  checkAllocated d (
  throw_if da_nc d <? 1 >>>
  let n := Z.quot (zlen (da_vals d)) (da_nc d) in
  fillGrid (da_vals d) (fun i j => j * n + i) n (da_nc d) (malloc A (zlen (da_vals d)))).
(** MemArray::toNoInterlace, 352-365, and 3684-3693. *)
Definition toNoInterlace {A} (d : da A) : res (list (option A)) :=
  checkAllocated d (
  throw_if da_nc d <? 1 >>>
  let n := Z.quot (zlen (da_vals d)) (da_nc d) in
  fillGrid (da_vals d) (fun i j => j * da_nc d + i) (da_nc d) n (malloc A (zlen (da_vals d)))).

(** rearrange, 1494-1520: the array afterwards.  The largest mcIdType is 2^63-1. *)
Definition rearrange {A} (d : da A) (newNbOfCompo : Z) : res (da A) :=
  checkAllocated d (
  throw_if newNbOfCompo <? 1 >>>
  throw_if negb (Z.rem (zlen (da_vals d)) newNbOfCompo =? 0) >>>
  throw_if 9223372036854775807 <? Z.quot (zlen (da_vals d)) newNbOfCompo >>>
  Ok (DA true newNbOfCompo (da_vals d))).
(** transpose, 1533-1538. *)
Definition transpose {A} (d : da A) : res (da A) := checkAllocated d (rearrange d (da_nt d)).

(** explodeComponents, 776-798: the values of the one component arrays returned. *)
Definition explodeComponents {A} (d : da A) : res (list (list (option A))) :=
  checkAllocated d (
  forZ 0 (da_nc d) (fun i ret =>
    let* part := alloc A (da_nt d) 1 in
    let* part := forZ 0 (da_nt d) (fun j part => let* x := rd (da_vals d) (da_nc d * j + i) in wrc part j x) part in
    Ok (ret ++ [part])) []).

(** Meld, 3605-3650: (number of components, values).  [None] is a null pointer; [pts] are the positions in the arrays. *)
Definition Meld {A} (arr : list (option (da A))) : res (Z * list (option A)) :=
  let a := omap id arr in
  match a with
  | [] => Throw
  | a0 :: _ =>
    let* _ := foldM (fun _ d => checkAllocated d (Ok tt)) a tt in
    let nbOfTuples := da_nt a0 in
    let* _ := foldM (fun _ d => ifthrow (negb (nbOfTuples =? da_nt d)) (Ok tt)) (drop 1 a) tt in
    let total := foldl Z.add 0 (da_nc <$> a) in
    let* ret := alloc A nbOfTuples total in
    let* (ret, _, _) := forZ 0 nbOfTuples (fun i '(ret, w, pts) =>
      let* (ret, w, pts') := foldM (fun '(ret, w, pts') '(d, p) =>
        let* ret := copyc (da_vals d) p (p + da_nc d) ret w in
        Ok (ret, w + da_nc d, pts' ++ [p + da_nc d])) (zip a pts) (ret, w, []) in
      Ok (ret, w, pts')) (ret, 0, (fun _ => 0) <$> a) in
    Ok (total, ret)
  end.
(** meldWith, 3708-3732: (number of components, values) of this array afterwards. *)
Definition meldWith {A} (d other : da A) : res (Z * list (option A)) :=
  checkAllocated d (checkAllocated other (
  let n := da_nt d in
  throw_if negb (n =? da_nt other) >>>
  let c1 := da_nc d in let c2 := da_nc other in
  let* (ret, _) := forZ 0 n (fun i '(ret, w) =>
    let* ret := copyc (da_vals d) (i * c1) (i * c1 + c1) ret w in
    let* ret := copyc (da_vals other) (i * c2) (i * c2 + c2) ret (w + c1) in
    Ok (ret, w + c1 + c2)) (malloc A (n * (c1 + c2)), 0) in
  Ok (c1 + c2, ret))).

(** changeNbOfComponents, 1553-1577: the values of the array returned, which has [newNb] components. *)
Definition changeNbOfComponents {A} (d : da A) (newNb : Z) (dft : A) : res (list (option A)) :=
  checkAllocated d (
  let* nc := alloc A (da_nt d) newNb in
  let dim := Z.min (da_nc d) newNb in
  forZ 0 (da_nt d) (fun i nc =>
    let* nc := forZ 0 dim (fun j nc => let* x := rd (da_vals d) (i * da_nc d + j) in wrc nc (newNb * i + j) x) nc in
    forZ dim newNb (fun j nc => wrc nc (newNb * i + j) dft) nc) nc).
(** myKeepSelectedComponents, 1596-1620: the values of the array returned, with as many components as ids.  [compoIds] are
    std::size_t, hence not negative. *)
Definition keepSelectedComponents {A} (d : da A) (compoIds : list Z) : res (list (option A)) :=
  checkAllocated d (
  let* _ := foldM (fun _ c => ifthrow (da_nc d <=? c) (Ok tt)) compoIds tt in
  let* ret := alloc A (da_nt d) (zlen compoIds) in
  let* (_, ret) := forZ 0 (da_nt d) (fun i s => forZ 0 (zlen compoIds) (fun j '(w, ret) =>
    let* x := (let* c := rd compoIds j in rd (da_vals d) (i * da_nc d + c)) in
    let* ret := wrc ret w x in Ok (w + 1, ret)) s) (0, ret) in
  Ok ret).
(** setSelectedComponents, 5578-5594 (and MEDCouplingMemArray.cxx 252-267): the values of this array afterwards. *)
Definition setSelectedComponents {A} (d : da A) (a : option (da A)) (compoIds : list Z) : res (list A) :=
  match a with
  | None => Throw
  | Some a =>
    checkAllocated d (checkAllocated a (
    throw_if negb (zlen compoIds =? da_nc a) >>>
    let* _ := foldM (fun _ c => ifthrow (da_nc d <=? c) (Ok tt)) compoIds tt in
    let n := Z.min (da_nt d) (da_nt a) in
    let* (nc, _) := forZ 0 n (fun i s => forZ 0 (zlen compoIds) (fun j '(nc, ac) =>
      let* x := rd (da_vals a) ac in
      let* c := rd compoIds j in
      let* nc := wr nc (da_nc d * i + c) x in Ok (nc, ac + 1)) s) (da_vals d, 0) in
    Ok nc))
  end.

(** duplicateEachTupleNTimes, 3743-3766. *)
Definition duplicateEachTupleNTimes {A} (d : da A) (nbTimes : Z) : res (list (option A)) :=
  checkAllocated d (
  throw_if negb (da_nc d =? 1) >>>
  throw_if nbTimes <? 1 >>>
  let* ret := alloc A (nbTimes * da_nt d) 1 in
  fillGrid (da_vals d) (fun i j => i) (da_nt d) nbTimes ret).
(** duplicateNTimes, 3768-3785.  A negative number is a huge allocation. *)
Definition duplicateNTimes {A} (d : da A) (nbTimes : Z) : res (list (option A)) :=
  checkAllocated d (
  let* ret := alloc A (nbTimes * da_nt d) (da_nc d) in
  let* (ret, _) := forZ 0 nbTimes (fun i '(ret, w) =>
    let* ret := copyc (da_vals d) 0 (zlen (da_vals d)) ret w in Ok (ret, w + zlen (da_vals d))) (ret, 0) in
  Ok ret).

(** DataArray::EffectiveCircPerm, MEDCouplingMemArray.cxx 171-186.  The opposite of the smallest 64-bit integer overflows. *)
Definition EffectiveCircPerm (nbOfShift nbOfTuples : Z) : res Z :=
  throw_if nbOfTuples <=? 0 >>>
  if 0 <=? nbOfShift then Ok (Z.rem nbOfShift nbOfTuples)
  else ub_if nbOfShift <? -9223372036854775807 >>> Ok (nbOfTuples - Z.rem (- nbOfShift) nbOfTuples).

(** [std::copy(p+a, p+b, p+d)] inside one buffer.  The C++ standard asks that [d] is not in [[a,b)]; [strict] tells whether this is
    enforced.  When it is not, the operation moves the block as if through a temporary: this is what libstdc++ does for
    the arithmetic types held by the arrays (memmove). *)
Definition moveIn {A} (strict : bool) (l : list A) (a b d : Z) : res (list A) :=
  ub_if (a <? 0) || (b <? a) || (zlen l <? b) || (d <? 0) || (zlen l <? d + (b - a)) >>>
  ub_if strict && (a <=? d) && (d <? b) >>>
  Ok (take (Z.to_nat d) l ++ take (Z.to_nat (b - a)) (drop (Z.to_nat a) l) ++ drop (Z.to_nat (d + (b - a))) l).
(** [std::copy] of the block [[a,b)] to a fresh buffer of that size, and back. *)
Definition saveBlock {A} (l : list A) (a b : Z) : res (list A) :=
  ub_if (a <? 0) || (b <? a) || (zlen l <? b) >>> Ok (take (Z.to_nat (b - a)) (drop (Z.to_nat a) l)).
Definition restoreBlock {A} (l : list A) (d : Z) (buf : list A) : res (list A) :=
  ub_if (d <? 0) || (zlen l <? d + zlen buf) >>>
  Ok (take (Z.to_nat d) l ++ buf ++ drop (Z.to_nat (d + zlen buf)) l).
(** The common part of circularPermutation (txx 2727-2741) and circularPermutationPerTuple (2757-2776): [work] begins at [o],
    [eff] out of [n] blocks of [c] values are rotated. *)
Definition rotateIn {A} (strict : bool) (l : list A) (o eff n c : Z) : res (list A) :=
  if eff <? n - eff then
    let* buf := saveBlock l o (o + eff * c) in
    let* l := moveIn strict l (o + eff * c) (o + n * c) o in
    restoreBlock l (o + (n - eff) * c) buf
  else
    let* buf := saveBlock l (o + eff * c) (o + n * c) in
    let* l := moveIn strict l o (o + eff * c) (o + (n - eff) * c) in
    restoreBlock l o buf.
(** circularPermutation, MEDCouplingMemArray.txx 2717-2742: the values afterwards. *)
Definition circularPermutation {A} (strict : bool) (d : da A) (nbOfShift : Z) : res (list A) :=
  checkAllocated d (
  let* eff := EffectiveCircPerm nbOfShift (da_nt d) in
  if eff =? 0 then Ok (da_vals d) else
  rotateIn strict (da_vals d) 0 eff (da_nt d) (da_nc d)).
(** circularPermutationPerTuple, 2744-2778: the values and the names of the components afterwards. *)
Definition circularPermutationPerTuple {A B} (strict : bool) (d : da A) (names : list B) (nbOfShift : Z) : res (list A * list B) :=
  checkAllocated d (
  let* eff := EffectiveCircPerm nbOfShift (da_nc d) in
  if eff =? 0 then Ok (da_vals d, names) else
  let* l := forZ 0 (da_nt d) (fun i l => rotateIn strict l (i * da_nc d) eff (da_nc d) 1) (da_vals d) in
  let* sts := forZ 0 (da_nc d) (fun i sts => let* x := rd names (Z.rem (i + eff) (da_nc d)) in Ok (sts ++ [x])) [] in
  Ok (l, sts)).

(** MemArray::reverse, 382-405, called by DataArrayTemplate::reverse 1088-1093: the values afterwards. *)
Definition reverse {A} (d : da A) : res (list A) :=
  checkAllocated d (
  throw_if da_nc d <? 1 >>>
  if da_nc d =? 1 then Ok (rev (da_vals d)) else
  let n := Z.quot (zlen (da_vals d)) (da_nc d) in
  let* (l, _, _) := forZ 0 (Z.quot n 2) (fun i '(l, pt, pt2) =>
    let* l := forZ 0 (da_nc d) (fun j l =>
      let* x := rd l (pt + j) in let* y := rd l (pt2 + j) in
      let* l := wr l (pt + j) y in wr l (pt2 + j) x) l in
    Ok (l, pt + da_nc d, pt2 - da_nc d)) (da_vals d, 0, zlen (da_vals d) - da_nc d) in
  Ok l).
(** reversePerTuple, 2780-2793: the values and the names of the components afterwards. *)
Definition reversePerTuple {A B} (d : da A) (names : list B) : res (list A * list B) :=
  checkAllocated d (
  if da_nc d <=? 1 then Ok (da_vals d, names) else
  let* l := forZ 0 (da_nt d) (fun i l =>
    let* buf := saveBlock l (i * da_nc d) (i * da_nc d + da_nc d) in
    restoreBlock l (i * da_nc d) (rev buf)) (da_vals d) in
  Ok (l, rev names)).
