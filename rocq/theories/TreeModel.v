(** The search trees of INTERP_KERNEL: BBTree.txx, BBTreePts.txx, BBTreeDiscrete.txx, and their users in MEDCouplingMemArray.
    Doubles are rationals (no rounding, no infinity); DBL_MAX is the greatest finite double. *)
From Coq Require Import QArith Qabs.
From Verif Require Import Base DataArray.
Local Open Scope Z_scope.

(** std::numeric_limits<double>::max(). *)
Definition DBL_MAX : Q := inject_Z (2 ^ 1024 - 2 ^ 971).
Definition ltb (a b : Q) : bool := negb (Qle_bool b a).
(** std::max and std::min: the first one when they are equal. *)
Definition qmax (a b : Q) : Q := if ltb a b then b else a.
Definition qmin (a b : Q) : Q := if ltb b a then b else a.
(** std::nth_element(l, l + k, end) followed by the reading of l[k]: the element of rank k. *)
Fixpoint insert (x : Q) (l : list Q) : list Q := match l with [] => [x] | y :: l' => if Qle_bool x y then x :: l else y :: insert x l' end.
Definition nthElement (l : list Q) (k : Z) : res Q := rd (fold_right insert [] l) k.

(** [elems ? elems[i] : i]. *)
Definition elemAt (elems : option (list Z)) (i : Z) : res Z := match elems with Some l => rd l i | None => Ok i end.
(** FromVectToPt, BBTree.txx 305-306. *)
Definition fromVect (l : list Z) : option (list Z) := match l with [] => None | _ => Some l end.
(** FillDataTerminal, BBTree.txx 229-242. *)
Definition FillDataTerminal (elems : option (list Z)) (nb : Z) : res (list Z) :=
  forZ 0 nb (fun i l => let* e := elemAt elems i in Ok (l ++ [e])) [].
(** FillDataNotTerminal, BBTree.txx 79-94; [key] gives the compared coordinate of an element. *)
Definition FillDataNotTerminal (key : Z -> res Q) (elems : option (list Z)) (nb : Z) : res (list Q) :=
  forZ 0 nb (fun i l => let* e := elemAt elems i in let* x := key e in Ok (l ++ [x])) [].
(** The loop of SplitForNotTerminal, BBTree.txx 113-134; [toRight min median] chooses the side. *)
Definition split (toRight : Q -> Q -> bool) (lo hi : Z -> res Q) (elems : option (list Z)) (nb : Z) (median : Q) : res (list Z * Q * list Z * Q) :=
  forZ 0 nb (fun i '(lft, max_left, rgt, min_right) =>
    let* e := elemAt elems i in
    let* mx := hi e in
    let* mn := lo e in
    if toRight mn median then Ok (lft, max_left, rgt ++ [e], if ltb mn min_right then mn else min_right)
    else Ok (lft ++ [e], if ltb max_left mx then mx else max_left, rgt, min_right)) ([], (- DBL_MAX)%Q, [], DBL_MAX).

(** A tree: the elements of a terminal, or the two bounds and the two subtrees; each one with its level. *)
Inductive tree : Type := Leaf (level : Z) (elems : list Z) | Node (level : Z) (maxLeft minRight : Q) (l r : tree).
Definition MIN_NB_ELEMS : Z := 15.
Definition MAX_LEVEL : Z := 20.
Definition terminal (level nb : Z) : bool := (nb <? MIN_NB_ELEMS) || (MAX_LEVEL <? level).

(** ** BBTree: boxes [xmin xmax ymin ymax ...] *)
Definition bmin (bbs : list Q) (dim k e : Z) : res Q := rd bbs (e * dim * 2 + k * 2).
Definition bmax (bbs : list Q) (dim k e : Z) : res Q := rd bbs (e * dim * 2 + k * 2 + 1).
Definition bigger (mn median : Q) : bool := ltb median mn.
(** The constructor, BBTree.txx 293-313, and 250-260; the fuel counts the levels that are left. *)
Fixpoint buildBB (fuel : nat) (bbs : list Q) (dim : Z) (eps : Q) (elems : option (list Z)) (level nb : Z) : res tree :=
  if terminal level nb then let* l := FillDataTerminal elems nb in Ok (Leaf level l)
  else match fuel with
  | O => Fuel
  | S f =>
    let k := level mod dim in
    let* nodes := FillDataNotTerminal (bmin bbs dim k) elems nb in
    let* median := nthElement nodes (nb / 2) in
    let* (lft, max_left, rgt, min_right) := split bigger (bmin bbs dim k) (bmax bbs dim k) elems nb median in
    let* l := buildBB f bbs dim eps (fromVect lft) (level + 1) (zlen lft) in
    let* r := buildBB f bbs dim eps (fromVect rgt) (level + 1) (zlen rgt) in
    Ok (Node level (max_left + Qabs eps)%Q (min_right - Qabs eps)%Q l r)
  end.
Definition BBTree (bbs : list Q) (dim n : Z) (eps : Q) : res tree := buildBB (Z.to_nat (MAX_LEVEL + 1)) bbs dim eps None 0 n.
(** The loop on the axes, BBTree.txx 328-334. *)
Definition intersects (bbs : list Q) (dim : Z) (eps : Q) (bb : list Q) (e : Z) : res bool :=
  forZ 0 dim (fun k b =>
    let* p := bmin bbs dim k e in let* q := bmax bbs dim k e in
    let* u := rd bb (k * 2 + 1) in let* v := rd bb (k * 2) in
    Ok (if ltb (- eps) (p - u) || ltb (q - v) eps then false else b)) true.
(** getIntersectingElems, BBTree.txx 320-358. *)
Fixpoint getIntersectingElems (bbs : list Q) (dim : Z) (eps : Q) (t : tree) (bb : list Q) (elems : list Z) : res (list Z) :=
  match t with
  | Leaf _ es => foldM (fun elems e => let* b := intersects bbs dim eps bb e in Ok (if b : bool then elems ++ [e] else elems)) es elems
  | Node level maxLeft minRight l r =>
    let* mn := rd bb (level mod dim * 2) in
    let* mx := rd bb (level mod dim * 2 + 1) in
    if ltb mx minRight then getIntersectingElems bbs dim eps l bb elems
    else if ltb maxLeft mn then getIntersectingElems bbs dim eps r bb elems
    else let* elems := getIntersectingElems bbs dim eps l bb elems in getIntersectingElems bbs dim eps r bb elems
  end.
(** getNbOfIntersectingElems, BBTree.txx 364-393. *)
Fixpoint getNbOfIntersectingElems (bbs : list Q) (dim : Z) (eps : Q) (t : tree) (bb : list Q) : res Z :=
  match t with
  | Leaf _ es => foldM (fun ret e => let* b := intersects bbs dim eps bb e in Ok (if b : bool then ret + 1 else ret)) es 0
  | Node level maxLeft minRight l r =>
    let* mn := rd bb (level mod dim * 2) in
    let* mx := rd bb (level mod dim * 2 + 1) in
    if ltb mx minRight then getNbOfIntersectingElems bbs dim eps l bb
    else if ltb maxLeft mn then getNbOfIntersectingElems bbs dim eps r bb
    else let* a := getNbOfIntersectingElems bbs dim eps l bb in let* b := getNbOfIntersectingElems bbs dim eps r bb in Ok (a + b)
  end.
(** getElementsAroundPoint, BBTree.txx 399-434. *)
Definition around (bbs : list Q) (dim : Z) (eps : Q) (xx : list Q) (e : Z) : res bool :=
  forZ 0 dim (fun k b =>
    let* p := bmin bbs dim k e in let* q := bmax bbs dim k e in let* x := rd xx k in
    Ok (if ltb eps (p - x) || ltb (q - x) (- eps) then false else b)) true.
Fixpoint getElementsAroundPoint (bbs : list Q) (dim : Z) (eps : Q) (t : tree) (xx : list Q) (elems : list Z) : res (list Z) :=
  match t with
  | Leaf _ es => foldM (fun elems e => let* b := around bbs dim eps xx e in Ok (if b : bool then elems ++ [e] else elems)) es elems
  | Node level maxLeft minRight l r =>
    let* x := rd xx (level mod dim) in
    if ltb x minRight then getElementsAroundPoint bbs dim eps l xx elems
    else if ltb maxLeft x then getElementsAroundPoint bbs dim eps r xx elems
    else let* elems := getElementsAroundPoint bbs dim eps l xx elems in getElementsAroundPoint bbs dim eps r xx elems
  end.
(** walk, BBTree.txx 58-70: the terminals that have elements, pushed in a vector. *)
Fixpoint walk (t : tree) (container : list tree) : list tree :=
  match t with
  | Leaf _ [] => container
  | Leaf _ _ => container ++ [t]
  | Node _ _ _ l r => walk r (walk l container)
  end.
(** LeafIterator: advanceToNextLeaf, BBTree.txx 144-167; the terminals met from begin() to end(), one step by node taken from the stack. *)
Fixpoint iterate (fuel : nat) (stack : list tree) (met : list tree) : res (list tree) :=
  match stack with
  | [] => Ok met
  | node :: stack =>
    match fuel with
    | O => Fuel
    | S f => match node with Leaf _ _ => iterate f stack (met ++ [node]) | Node _ _ _ l r => iterate f (l :: r :: stack) met end
    end
  end.
(** size, BBTree.txx 219-224. *)
Fixpoint size (t : tree) : Z := match t with Leaf _ es => zlen es | Node _ _ _ l r => size l + size r end.
(** computeNbOfInteractionsWith, MEDCouplingMemArray.cxx 1419-1471, with ComputeNbOfInteractionsWithInternal, 1394-1403. *)
Definition computeNbOfInteractionsWith (this other : da Q) (eps : Q) : res (list Z) :=
  throw_if (negb (da_alloc this) || negb (da_alloc other)) >>>
  throw_if (negb (da_nc this =? da_nc other)) >>>
  throw_if (negb (da_nc this mod 2 =? 0)) >>>
  let dim := da_nc this / 2 in
  throw_if ((dim <? 1) || (3 <? dim)) >>>
  let* t := BBTree (da_vals other) dim (da_nt other) eps in
  forZ 0 (da_nt this) (fun i ret =>
    let* n := getNbOfIntersectingElems (da_vals other) dim eps t (drop (Z.to_nat (i * (2 * dim))) (da_vals this)) in Ok (ret ++ [n])) [].

(** ** BBTreePts: points [x y ...]; the tolerance is positive *)
Definition coord (pts : list Q) (dim k e : Z) : res Q := rd pts (e * dim + k).
(** The constructor, BBTreePts.txx 68-138. The coordinates are read before the terminals are told apart. *)
Fixpoint buildPts (fuel : nat) (pts : list Q) (dim : Z) (eps : Q) (elems : option (list Z)) (level nb : Z) : res tree :=
  let k := level mod dim in
  let* l := FillDataTerminal elems nb in
  let* nodes := FillDataNotTerminal (coord pts dim k) elems nb in
  if terminal level nb then Ok (Leaf level l)
  else match fuel with
  | O => Fuel
  | S f =>
    let* median := nthElement nodes (nb / 2) in
    let* (lft, max_left, rgt, min_right) := split bigger (coord pts dim k) (coord pts dim k) elems nb median in
    let* l := buildPts f pts dim (Qabs eps) (fromVect lft) (level + 1) (zlen lft) in
    let* r := buildPts f pts dim (Qabs eps) (fromVect rgt) (level + 1) (zlen rgt) in
    Ok (Node level (max_left + Qabs eps)%Q (min_right - Qabs eps)%Q l r)
  end.
Definition BBTreePts (pts : list Q) (dim n : Z) (eps : Q) : res tree := buildPts (Z.to_nat (MAX_LEVEL + 1)) pts dim eps None 0 n.
(** getElementsAroundPoint, BBTreePts.txx 204-233. *)
Definition close (pts : list Q) (dim : Z) (eps : Q) (xx : list Q) (e : Z) : res bool :=
  forZ 0 dim (fun k b => if b : bool then let* p := coord pts dim k e in let* x := rd xx k in Ok (Qle_bool (Qabs (p - x)) (Qabs eps)) else Ok false) true.
Fixpoint getPointsAround (pts : list Q) (dim : Z) (eps : Q) (t : tree) (xx : list Q) (elems : list Z) : res (list Z) :=
  match t with
  | Leaf _ es => foldM (fun elems e => let* b := close pts dim eps xx e in Ok (if b : bool then elems ++ [e] else elems)) es elems
  | Node level maxLeft minRight l r =>
    let* x := rd xx (level mod dim) in
    if ltb x minRight then getPointsAround pts dim eps l xx elems
    else if ltb maxLeft x then getPointsAround pts dim eps r xx elems
    else let* elems := getPointsAround pts dim eps l xx elems in getPointsAround pts dim eps r xx elems
  end.
(** getElementsAroundPoint2, BBTreePts.txx 154-196: the square of the distance, and the element, which is not written when there is none ([None]: the local variables eleml, elemr). [root] is sqrt. *)
Definition dist2 (pts : list Q) (dim : Z) (xx : list Q) (e : Z) : res Q :=
  forZ 0 dim (fun k tmp => let* p := coord pts dim k e in let* x := rd xx k in Ok (tmp + (p - x) * (p - x))%Q) 0%Q.
Fixpoint getClosestPoint (root : Q -> Q) (pts : list Q) (dim : Z) (t : tree) (xx : list Q) (threshold : Q) (elem : option Z) : res (Q * option Z) :=
  match t with
  | Leaf _ es => foldM (fun '(ret, elem) e => let* tmp := dist2 pts dim xx e in
      Ok (if ltb tmp threshold && ltb tmp ret then (tmp, Some e) else (ret, elem))) es (DBL_MAX, elem)
  | Node level maxLeft minRight l r =>
    let s := root (threshold * inject_Z dim)%Q in
    let* x := rd xx (level mod dim) in
    if ltb (x + s) minRight then getClosestPoint root pts dim l xx threshold elem
    else if ltb maxLeft (x - s) then getClosestPoint root pts dim r xx threshold elem
    else
      let* (retl, eleml) := getClosestPoint root pts dim l xx threshold None in
      let* (retr, elemr) := getClosestPoint root pts dim r xx threshold None in
      Ok (if ltb retl retr then (retl, eleml) else (retr, elemr))
  end.

(** ** BBTreeDiscrete: tuples of integers *)
Definition atLeast (v median : Q) : bool := Qle_bool median v.
Definition discrete (bbs : list Z) (dim k e : Z) : res Q := let* v := rd bbs (e * dim + k) in Ok (inject_Z v).
(** The constructor, BBTreeDiscrete.txx 57-128; numeric_limits<T>::max() is DBL_MAX here: the bounds of an empty side are not used. *)
Fixpoint buildDiscrete (fuel : nat) (bbs : list Z) (dim : Z) (elems : option (list Z)) (level nb : Z) : res tree :=
  let k := level mod dim in
  let* l := FillDataTerminal elems nb in
  let* nodes := FillDataNotTerminal (discrete bbs dim k) elems nb in
  if terminal level nb then Ok (Leaf level l)
  else match fuel with
  | O => Fuel
  | S f =>
    let* median := nthElement nodes (nb / 2) in
    let* (lft, max_left, rgt, min_right) := split atLeast (discrete bbs dim k) (discrete bbs dim k) elems nb median in
    let* l := buildDiscrete f bbs dim (fromVect lft) (level + 1) (zlen lft) in
    let* r := buildDiscrete f bbs dim (fromVect rgt) (level + 1) (zlen rgt) in
    Ok (Node level max_left min_right l r)
  end.
Definition BBTreeDiscrete (bbs : list Z) (dim n : Z) : res tree := buildDiscrete (Z.to_nat (MAX_LEVEL + 1)) bbs dim None 0 n.
(** getIntersectingElems, BBTreeDiscrete.txx 137-173. *)
Definition same (bbs : list Z) (dim : Z) (bb : list Z) (e : Z) : res bool :=
  forZ 0 dim (fun k b => let* p := rd bbs (e * dim + k) in let* v := rd bb k in Ok (if negb (p =? v) then false else b)) true.
Fixpoint getEqualElems (bbs : list Z) (dim : Z) (t : tree) (bb : list Z) (elems : list Z) : res (list Z) :=
  match t with
  | Leaf _ es => foldM (fun elems e => let* b := same bbs dim bb e in Ok (if b : bool then elems ++ [e] else elems)) es elems
  | Node level maxLeft minRight l r =>
    let* v := rd bb (level mod dim) in
    if ltb (inject_Z v) minRight then getEqualElems bbs dim l bb elems
    else if ltb maxLeft (inject_Z v) then getEqualElems bbs dim r bb elems
    else let* elems := getEqualElems bbs dim l bb elems in getEqualElems bbs dim r bb elems
  end.

(** ** Coincident tuples *)
(** findCommonTuplesAlg, MEDCouplingMemArray.cxx 75-111 and MEDCouplingMemArray.txx 4727-4765, with the search left as a parameter: the vectors c and cI, and the marks. *)
Definition findCommonTuplesAlg (search : Z -> res (list Z)) (n limit : Z) : res (list Z * list Z) :=
  let* (c, cI, _) := forZ 0 n (fun i '(c, cI, isDone) =>
    let* d := rd isDone i in
    if d : bool then Ok (c, cI, isDone)
    else
      let* es := search i in
      if 1 <? zlen es then
        let* (common, isDone) := foldM (fun '(common, isDone) e =>
          if negb (e =? i) && (limit <=? e) then let* isDone := wr isDone e true in Ok (common ++ [e], isDone) else Ok (common, isDone)) es ([], isDone) in
        match common with
        | [] => Ok (c, cI, isDone)
        | _ => let* b := rd cI (zlen cI - 1) in Ok (c ++ [i] ++ common, cI ++ [b + zlen common + 1], isDone)
        end
      else Ok (c, cI, isDone)) ([], [0], replicate (Z.to_nat n) false) in
  Ok (c, cI).
(** DataArrayDouble::findCommonTuples, MEDCouplingMemArray.cxx 1229-1268. *)
Definition findCommonTuples (d : da Q) (prec : Q) (limit : Z) : res (list Z * list Z) :=
  checkAllocated d (
  throw_if ((da_nc d <? 1) || (4 <? da_nc d)) >>>
  let* t := BBTreePts (da_vals d) (da_nc d) (da_nt d) prec in
  findCommonTuplesAlg (fun i => getPointsAround (da_vals d) (da_nc d) prec t (drop (Z.to_nat (i * da_nc d)) (da_vals d)) []) (da_nt d) limit).
(** DataArrayDiscrete::findCommonTuples, MEDCouplingMemArray.txx 4767-4805. *)
Definition findCommonTuplesInt (d : da Z) (limit : Z) : res (list Z * list Z) :=
  checkAllocated d (
  throw_if ((da_nc d <? 1) || (4 <? da_nc d)) >>>
  let* t := BBTreeDiscrete (da_vals d) (da_nc d) (da_nt d) in
  findCommonTuplesAlg (fun i => getEqualElems (da_vals d) (da_nc d) t (drop (Z.to_nat (i * da_nc d)) (da_vals d)) []) (da_nt d) limit).
(** computeTupleIdsNearTuples, MEDCouplingMemArray.cxx 1644-1691, with FindTupleIdsNearTuplesAlg, 113-134. *)
Definition computeTupleIdsNearTuples (d other : da Q) (eps : Q) : res (list Z * list Z) :=
  checkAllocated d (checkAllocated other (
  throw_if (negb (da_nc d =? da_nc other)) >>>
  throw_if ((da_nc d <? 1) || (3 <? da_nc d)) >>>
  let* t := BBTreePts (da_vals d) (da_nc d) (da_nt d) eps in
  forZ 0 (da_nt other) (fun i '(c, cI) =>
    let* es := getPointsAround (da_vals d) (da_nc d) eps t (drop (Z.to_nat (i * da_nc d)) (da_vals other)) [] in
    let* b := rd cI (zlen cI - 1) in
    Ok (c ++ es, cI ++ [b + zlen es])) ([], [0]))).
