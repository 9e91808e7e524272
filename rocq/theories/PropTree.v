(** C59, C60, C61: the searches in trees of boxes and of points, the coincident tuples, the closest tuples. The specification is in TreeSpec.v. *)
From Coq Require Import QArith Qabs Lqa ZifyBool ZifyNat.
From Verif Require Import Base DataArray IndexSpec TreeModel TreeModel2 TreeSpec TreeProofs TreeProofs4 TreeProofs5 TreeProofs7 TreeProofs8 TreeProofs9 TreeProofs10 TreeProofs11 TreeProofs12.
Local Open Scope Z_scope.

(** ** C59: boxes *)
(** Whatever the boxes, the tolerance and the searched box, the tree returns each box that overlaps it, once, and no other one; the count is theirs. *)
Theorem C59_intersecting bbs dim n eps bb : boxes bbs dim n -> 2 * dim <= zlen bb -> exists t l, BBTree bbs dim n eps = Ok t /\ (forall elems, getIntersectingElems bbs dim eps t bb elems = Ok (elems ++ l)) /\
  getNbOfIntersectingElems bbs dim eps t bb = Ok (zlen l) /\ NoDup l /\ forall e, e ∈ l <-> 0 <= e < n /\ overlap bbs dim e eps bb 0.
Proof. exact (tree_intersecting bbs dim n eps bb). Qed.
Print Assumptions C59_intersecting.
Theorem C59_around bbs dim n eps xx : boxes bbs dim n -> dim <= zlen xx -> exists t l, BBTree bbs dim n eps = Ok t /\ (forall elems, getElementsAroundPoint bbs dim eps t xx elems = Ok (elems ++ l)) /\
  NoDup l /\ forall e, e ∈ l <-> 0 <= e < n /\ contains bbs dim e eps xx.
Proof. exact (tree_around bbs dim n eps xx). Qed.
Print Assumptions C59_around.
Theorem C59_points pts dim n eps xx : points pts dim n -> dim <= zlen xx -> exists t l, BBTreePts pts dim n eps = Ok t /\ (forall elems, getPointsAround pts dim eps t xx elems = Ok (elems ++ l)) /\
  NoDup l /\ forall e, e ∈ l <-> 0 <= e < n /\ near pts dim e eps xx 0.
Proof. exact (tree_points pts dim n eps xx). Qed.
Print Assumptions C59_points.
(** The terminals share out the boxes. *)
Theorem C59_terminals bbs dim n eps : boxes bbs dim n -> exists t, BBTree bbs dim n eps = Ok t /\ size t = n /\
  flat_map contents (walk t []) ≡ₚ seqZ 0 n /\ (forall x, x ∈ walk t [] -> contents x <> []) /\
  exists F ts, (forall fuel, (F <= fuel)%nat -> iterate fuel [t] [] = Ok ts) /\ flat_map contents ts ≡ₚ seqZ 0 n.
Proof. exact (tree_terminals bbs dim n eps). Qed.
Print Assumptions C59_terminals.
Theorem C59_interactions this other dim eps : da_alloc this = true -> da_alloc other = true -> da_wf this -> da_wf other -> 1 <= dim <= 3 -> da_nc this = 2 * dim -> da_nc other = 2 * dim ->
  exists ret, computeNbOfInteractionsWith this other eps = Ok ret /\ zlen ret = da_nt this /\
    forall i, 0 <= i < da_nt this -> exists l, ret @ i = Some (zlen l) /\ NoDup l /\ forall e, e ∈ l <-> 0 <= e < da_nt other /\ overlap (da_vals other) dim e eps (da_vals this) i.
Proof. exact (interactions_ok this other dim eps). Qed.
Print Assumptions C59_interactions.
Theorem C59_interactions_throws this other eps : da_wf this -> da_wf other -> computeNbOfInteractionsWith this other eps = Throw <->
  ~ (da_alloc this = true /\ da_alloc other = true /\ da_nc this = da_nc other /\ (da_nc this = 2 \/ da_nc this = 4 \/ da_nc this = 6)).
Proof. exact (interactions_throw this other eps). Qed.
Print Assumptions C59_interactions_throws.
(** The documentation of the class: with a positive tolerance, more boxes than with none. It is the contrary. *)
Theorem C59_positive_tolerance_refuted : ~ forall bbs dim n eps bb t l, boxes bbs dim n -> 2 * dim <= zlen bb -> (0 <= eps)%Q -> BBTree bbs dim n eps = Ok t -> getIntersectingElems bbs dim eps t bb [] = Ok l ->
  forall e, 0 <= e < n -> overlap bbs dim e 0 bb 0 -> e ∈ l.
Proof. exact doc_refuted. Qed.
Print Assumptions C59_positive_tolerance_refuted.
(** 20 boxes with a tree that is not a terminal; the boxes of 6 points. *)
Definition exB : list Q := flat_map (fun i => [inject_Z i; inject_Z (i + 2)]) (seqZ 0 20).
Example C59_ex : boxes exB 1 20 /\ (exists t, BBTree exB 1 20 (1#10) = Ok t /\ size t = 20 /\ zlen (walk t []) = 2 /\ getIntersectingElems exB 1 (1#10) t [5%Q; 6%Q] [] = Ok [4; 5] /\
  getElementsAroundPoint exB 1 (1#10) t [5%Q] [] = Ok [3; 4; 5]) /\
  computeNbOfInteractionsWith (DA true 2 exB) (DA true 2 exB) (- (1#10)) = Ok ([3; 4] ++ replicate 16 5 ++ [4; 3]).
Proof. split; [done|]. split; [eexists; split; [reflexivity|]|]; vm_compute; done. Qed.

(** ** C60: coincident tuples *)
Theorem C60_common d prec limit : da_alloc d = true -> da_wf d -> 1 <= da_nc d <= 4 -> exists gs c cI, findCommonTuples d prec limit = Ok (c, cI) /\ skyline gs c cI /\
  coincident_groups (da_nt d) limit (fun i j => near (da_vals d) (da_nc d) i prec (da_vals d) j) gs /\
  (limit <= 0 -> transitive_on (da_nt d) (fun i j => near (da_vals d) (da_nc d) i prec (da_vals d) j) -> classes (da_nt d) (fun i j => near (da_vals d) (da_nc d) i prec (da_vals d) j) gs).
Proof. exact (common_ok d prec limit). Qed.
Print Assumptions C60_common.
Theorem C60_common_throws d prec limit : da_wf d -> findCommonTuples d prec limit = Throw <-> ~ (da_alloc d = true /\ 1 <= da_nc d <= 4).
Proof. exact (common_throw d prec limit). Qed.
Print Assumptions C60_common_throws.
Theorem C60_common_int d limit : da_alloc d = true -> da_wf d -> 1 <= da_nc d <= 4 -> exists gs c cI, findCommonTuplesInt d limit = Ok (c, cI) /\ skyline gs c cI /\
  coincident_groups (da_nt d) limit (fun i j => equal_tuples (da_vals d) (da_nc d) i (da_vals d) j) gs /\
  (limit <= 0 -> classes (da_nt d) (fun i j => equal_tuples (da_vals d) (da_nc d) i (da_vals d) j) gs).
Proof. exact (commonInt_ok d limit). Qed.
Print Assumptions C60_common_int.
Theorem C60_common_int_throws d limit : da_wf d -> findCommonTuplesInt d limit = Throw <-> ~ (da_alloc d = true /\ 1 <= da_nc d <= 4).
Proof. exact (commonInt_throw d limit). Qed.
Print Assumptions C60_common_int_throws.
Theorem C60_near d other eps : da_alloc d = true -> da_alloc other = true -> da_wf d -> da_wf other -> da_nc d = da_nc other -> 1 <= da_nc d <= 3 ->
  exists gs c cI, computeTupleIdsNearTuples d other eps = Ok (c, cI) /\ skyline gs c cI /\ zlen gs = da_nt other /\
    forall i g, gs @ i = Some g -> NoDup g /\ forall e, e ∈ g <-> 0 <= e < da_nt d /\ near (da_vals d) (da_nc d) e eps (da_vals other) i.
Proof. exact (nearTuples_ok d other eps). Qed.
Print Assumptions C60_near.
Theorem C60_near_throws d other eps : da_wf d -> da_wf other -> computeTupleIdsNearTuples d other eps = Throw <->
  ~ (da_alloc d = true /\ da_alloc other = true /\ da_nc d = da_nc other /\ 1 <= da_nc d <= 3).
Proof. exact (nearTuples_throw d other eps). Qed.
Print Assumptions C60_near_throws.
Theorem C60_included this other prec : da_alloc this = true -> da_alloc other = true -> da_wf this -> da_wf other -> da_nc this = da_nc other -> 1 <= da_nc this <= 4 ->
  exists b ids, areIncludedInMe this other prec = Ok (b, ids) /\ zlen ids = da_nt other /\
    (b = true <-> forall j, 0 <= j < da_nt other -> exists i, 0 <= i < da_nt this /\ near (da_vals this) (da_nc this) i prec (da_vals other) j) /\
    (b = true -> forall j, 0 <= j < da_nt other -> exists i, ids @ j = Some i /\ 0 <= i < da_nt this /\ near (da_vals this) (da_nc this) i prec (da_vals other) j /\
      forall i', 0 <= i' < da_nt this -> near (da_vals this) (da_nc this) i' prec (da_vals other) j -> i' <= i).
Proof. exact (included_ok this other prec). Qed.
Print Assumptions C60_included.
Theorem C60_included_throws this other prec : da_wf this -> da_wf other -> areIncludedInMe this other prec = Throw <->
  ~ (da_alloc this = true /\ da_alloc other = true /\ da_nc this = da_nc other /\ 1 <= da_nc this <= 4).
Proof. exact (included_throw this other prec). Qed.
Print Assumptions C60_included_throws.
(** One tuple for each class, each tuple has its representative. *)
Theorem C60_different d prec limit : da_alloc d = true -> da_wf d -> 1 <= da_nc d <= 4 -> limit <= 0 ->
  transitive_on (da_nt d) (fun i j => near (da_vals d) (da_nc d) i prec (da_vals d) j) ->
  exists l K, getDifferentValues d prec limit = Ok (DA true (da_nc d) (Some <$> l)) /\ 0 <= K /\ zlen l = K * da_nc d /\
    (forall t, 0 <= t < K -> exists i, 0 <= i < da_nt d /\ forall k, 0 <= k < da_nc d -> l @ (t * da_nc d + k) = da_vals d @ (i * da_nc d + k)) /\
    (forall i, 0 <= i < da_nt d -> exists t, 0 <= t < K /\ near (da_vals d) (da_nc d) i prec l t) /\
    (forall t t', 0 <= t < K -> 0 <= t' < K -> t <> t' -> ~ near l (da_nc d) t prec l t').
Proof. exact (different_ok d prec limit). Qed.
Print Assumptions C60_different.
(** 0, 1, 2 within 1: the tuple 1 is in two groups. *)
Theorem C60_one_group_refuted : ~ forall d prec c cI, da_alloc d = true -> da_wf d -> 1 <= da_nc d <= 4 -> findCommonTuples d prec (-1) = Ok (c, cI) -> NoDup c.
Proof. exact one_group_refuted. Qed.
Print Assumptions C60_one_group_refuted.
(** 5, 5, 5 from the tuple 2: the groups (0,2) and (1,2). *)
Theorem C60_one_group_limit_refuted : ~ forall d prec limit c cI, da_alloc d = true -> da_wf d -> 1 <= da_nc d <= 4 ->
  transitive_on (da_nt d) (fun i j => near (da_vals d) (da_nc d) i prec (da_vals d) j) -> findCommonTuples d prec limit = Ok (c, cI) -> NoDup c.
Proof. exact one_group_limit_refuted. Qed.
Print Assumptions C60_one_group_limit_refuted.
(** The documentation of computeTupleIdsNearTuples speaks of the euclidian distance. *)
Theorem C60_euclidian_refuted : ~ forall d other eps c cI, da_alloc d = true -> da_alloc other = true -> da_wf d -> da_wf other -> da_nc d = da_nc other -> 1 <= da_nc d <= 3 -> (0 <= eps)%Q -> da_nt other = 1 ->
  computeTupleIdsNearTuples d other eps = Ok (c, cI) -> forall e, e ∈ c -> (sqdist (da_vals d) (da_nc d) e (da_vals other) 0 <= eps * eps)%Q.
Proof. exact euclidian_refuted. Qed.
Print Assumptions C60_euclidian_refuted.
Example C60_ex : da_wf qcloud /\ da_nt qcloud = 20 /\ findCommonTuples qcloud 1 (-1) = Ok ([0; 15; 11; 19], [0; 2; 4]) /\
  findCommonTuplesInt (DA true 1 [3; 1; 3; 2; 1; 3]) (-1) = Ok ([0; 2; 5; 1; 4], [0; 3; 5]) /\
  computeTupleIdsNearTuples qcloud (DA true 2 [1%Q; 9%Q; 15%Q; 7%Q]) 5 = Ok ([1; 16; 7; 11; 12; 19], [0; 2; 6]) /\
  areIncludedInMe q012 (DA true 1 [2%Q; 0%Q]) (1#10) = Ok (true, [2; 0]) /\
  getDifferentValues (DA true 1 [1%Q; 5%Q; 1%Q; 5%Q; 7%Q]) (1#10) (-1) = Ok (DA true 1 [Some 1%Q; Some 5%Q; Some 7%Q]).
Proof. split; [exact wf_cloud|]. vm_compute. done. Qed.

(** ** C61: closest tuples. [root] is any function at least as great as the square root; [cbrt] is any function. *)
Theorem C61_closest root cbrt this other : is_root root -> da_alloc this = true -> da_alloc other = true -> da_wf this -> da_wf other -> da_nc this = da_nc other -> 1 <= da_nc this <= 3 ->
  (forall e j, 0 <= e < da_nt this -> 0 <= j < da_nt other -> (sqdist (da_vals this) (da_nc this) e (da_vals other) j < DBL_MAX)%Q) -> 1 <= da_nt this ->
  exists F r, zlen r = da_nt other /\
  (forall j, 0 <= j < da_nt other -> exists e, r @ j = Some e /\ 0 <= e < da_nt this /\ forall e', 0 <= e' < da_nt this -> (sqdist (da_vals this) (da_nc this) e (da_vals other) j <= sqdist (da_vals this) (da_nc this) e' (da_vals other) j)%Q) /\
  forall fuel, (F <= fuel)%nat -> findClosestTupleId fuel root cbrt this other = Ok r.
Proof. exact (closestTuple_ok root cbrt this other). Qed.
Print Assumptions C61_closest.
Theorem C61_minimal root cbrt this other : is_root root -> da_alloc this = true -> da_alloc other = true -> da_wf this -> da_wf other -> da_nc this = da_nc other -> 1 <= da_nc this <= 3 ->
  (forall e j, 0 <= e < da_nt this -> 0 <= j < da_nt other -> (sqdist (da_vals this) (da_nc this) e (da_vals other) j < DBL_MAX)%Q) -> 1 <= da_nt this ->
  exists F res, (forall fuel, (F <= fuel)%nat -> minimalDistanceTo fuel root cbrt this other = Ok res) /\
  (da_nt other = 0 -> res = (root DBL_MAX, None)) /\
  (1 <= da_nt other -> exists e i d, res = (root d, Some (e, i)) /\ 0 <= e < da_nt this /\ 0 <= i < da_nt other /\ (d == sqdist (da_vals this) (da_nc this) e (da_vals other) i)%Q /\
    forall e' i', 0 <= e' < da_nt this -> 0 <= i' < da_nt other -> (d <= sqdist (da_vals this) (da_nc this) e' (da_vals other) i')%Q).
Proof. exact (minimal_ok root cbrt this other). Qed.
Print Assumptions C61_minimal.
(** The first one of the closest tuples, whatever [root]. *)
Theorem C61_distance root d tuple : da_alloc d = true -> da_wf d -> 1 <= da_nc d -> da_nc d = zlen tuple -> 1 <= da_nt d ->
  (forall i, 0 <= i < da_nt d -> (sqdist (da_vals d) (da_nc d) i tuple 0 < DBL_MAX)%Q) ->
  exists i, distanceToTuple root d tuple = Ok (root (sqdist (da_vals d) (da_nc d) i tuple 0), i) /\ 0 <= i < da_nt d /\
    (forall i', 0 <= i' < da_nt d -> (sqdist (da_vals d) (da_nc d) i tuple 0 <= sqdist (da_vals d) (da_nc d) i' tuple 0)%Q) /\
    (forall i', 0 <= i' < i -> (sqdist (da_vals d) (da_nc d) i tuple 0 < sqdist (da_vals d) (da_nc d) i' tuple 0)%Q).
Proof. exact (distance_ok root d tuple). Qed.
Print Assumptions C61_distance.
Theorem C61_distance_throws root d tuple : da_wf d -> (forall i, 0 <= i < da_nt d -> (sqdist (da_vals d) (da_nc d) i tuple 0 < DBL_MAX)%Q) -> 1 <= da_nc d ->
  distanceToTuple root d tuple = Throw <-> ~ (da_alloc d = true /\ da_nc d = zlen tuple /\ da_nt d <> 0).
Proof. exact (distance_throw root d tuple). Qed.
Print Assumptions C61_distance_throws.
(** The bounds of each component are written at their places, and nothing behind them. *)
Theorem C61_minmax d bounds : da_alloc d = true -> da_wf d -> 1 <= da_nc d -> 2 * da_nc d <= zlen bounds ->
  exists b, getMinMaxPerComponent d bounds = Ok b /\ zlen b = zlen bounds /\ (forall p, 2 * da_nc d <= p -> b @ p = bounds @ p) /\
    forall k, 0 <= k < da_nc d -> exists mn mx, b @ (k * 2) = Some (Some mn) /\ b @ (k * 2 + 1) = Some (Some mx) /\
      (forall i, 0 <= i < da_nt d -> (mn <= at_ (da_vals d) (da_nc d) i k <= mx)%Q) /\
      (mn = DBL_MAX \/ exists i, 0 <= i < da_nt d /\ mn = at_ (da_vals d) (da_nc d) i k) /\ (mx = (- DBL_MAX)%Q \/ exists i, 0 <= i < da_nt d /\ mx = at_ (da_vals d) (da_nc d) i k).
Proof. exact (minmax_ok d bounds). Qed.
Print Assumptions C61_minmax.
Theorem C61_closest_throws fuel root cbrt this other : ~ (da_alloc this = true /\ da_alloc other = true /\ da_nc this = da_nc other) -> findClosestTupleId fuel root cbrt this other = Throw.
Proof. exact (closest_throws fuel root cbrt this other). Qed.
Print Assumptions C61_closest_throws.
(** With four components or more, the exception that is announced is not reached: the memory behind bounds[6] is written. *)
Theorem C61_components_refuted : ~ forall fuel root cbrt this other, da_wf this -> da_wf other -> da_alloc this = true -> da_alloc other = true -> da_nc this = da_nc other -> ~ (1 <= da_nc this <= 3) ->
  findClosestTupleId fuel root cbrt this other = Throw.
Proof. exact components_refuted. Qed.
Print Assumptions C61_components_refuted.
(** Without tuple in this, the search does not end. *)
Theorem C61_empty_refuted : ~ forall root cbrt this other, is_root root -> da_alloc this = true -> da_alloc other = true -> da_wf this -> da_wf other -> da_nc this = da_nc other -> 1 <= da_nc this <= 3 ->
  exists fuel, findClosestTupleId fuel root cbrt this other <> Fuel.
Proof. exact empty_refuted. Qed.
Print Assumptions C61_empty_refuted.
Example C61_ex : is_root above /\ da_wf qcloud /\ findClosestTupleId 30 above above qcloud (DA true 2 [1%Q; 9%Q; 15%Q; 7%Q]) = Ok [1; 12] /\
  distanceToTuple above qcloud [15%Q; 7%Q] = Ok (13%Q, 12).
Proof. split; [exact above_ok|]. split; [exact wf_cloud|]. vm_compute. done. Qed.
