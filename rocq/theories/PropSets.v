(** C08, C09, C15, C16, C17, C53. *)
From stdpp Require Import gmap.
From Verif Require Import Base DataArray RenumSpec StdModel SearchSpec SetsSpec SetsModel StdProofs SearchProofs SetsProofs PermProofs.

(** ** C08 *)
Theorem C08_buildPermutationArr : forall l o, zlen l = zlen o -> (forall v, v ∈ o -> v ∈ l) ->
  exists k, buildPermutationArr (vec l) (vec o) = Ok (Some <$> k) /\ zlen k = zlen o /\
    forall i v, o @ i = Some v -> exists p, k @ i = Some p /\ l @ p = Some v.
Proof. exact buildPerm_ok. Qed.
Print Assumptions C08_buildPermutationArr.
Theorem C08_buildPermutationArr_throws : forall d o,
  buildPermutationArr d o = Throw <-> bad_shape d \/ bad_shape o \/ da_nt d <> da_nt o \/ exists v, v ∈ da_vals o /\ v ∉ da_vals d.
Proof. exact buildPerm_throw. Qed.
Print Assumptions C08_buildPermutationArr_throws.
Theorem C08_FindPermutation : forall a b, NoDup a -> a ≡ₚ b ->
  exists p, FindPermutationFromFirstToSecond (Some (vec a)) (Some (vec b)) = Ok (Some <$> p) /\ is_perm (zlen a) p /\
    forall i j, p @ i = Some j -> b @ j = a @ i.
Proof. exact findPerm_ok. Qed.
Print Assumptions C08_FindPermutation.
Theorem C08_FindPermutation_throws : forall a b,
  FindPermutationFromFirstToSecond (Some (vec a)) (Some (vec b)) = Throw <-> ~ (NoDup a /\ a ≡ₚ b).
Proof. exact findPerm_throw. Qed.
Print Assumptions C08_FindPermutation_throws.
Theorem C08_FindPermutationDuplicate : forall a b, a ≡ₚ b ->
  exists p, FindPermutationFromFirstToSecondDuplicate (Some (vec a)) (Some (vec b)) = Ok (Some <$> p) /\ is_perm (zlen a) p /\
    (forall i j, p @ i = Some j -> b @ j = a @ i) /\ forall i j x y, i < j -> a @ i = a @ j -> p @ i = Some x -> p @ j = Some y -> x < y.
Proof. exact findPermDup_ok. Qed.
Print Assumptions C08_FindPermutationDuplicate.
Theorem C08_FindPermutationDuplicate_throws : forall a b,
  FindPermutationFromFirstToSecondDuplicate (Some (vec a)) (Some (vec b)) = Throw <-> ~ a ≡ₚ b.
Proof. exact findPermDup_throw. Qed.
Print Assumptions C08_FindPermutationDuplicate_throws.
Example C08_example : buildPermutationArr (vec [4;5;6]) (vec [6;4;4]) = Ok (Some <$> [2;0;0]) /\
  FindPermutationFromFirstToSecond (Some (vec [30;10;20])) (Some (vec [10;20;30])) = Ok (Some <$> [2;0;1]) /\
  FindPermutationFromFirstToSecondDuplicate (Some (vec [5;7;5])) (Some (vec [7;5;5])) = Ok (Some <$> [1;0;2]) /\
  FindPermutationFromFirstToSecondDuplicate (Some (vec [5;7;5])) (Some (vec [7;5;7])) = Throw.
Proof. vm_compute. auto. Qed.

(** ** C09 *)
Theorem C09_checkAndPreparePermutation : forall d, da_alloc d = true -> da_nc d = 1 -> NoDup (da_vals d) ->
  exists k, checkAndPreparePermutation d = Ok (Some <$> k) /\ is_perm (da_nt d) k /\
    forall i j x y p q, da_vals d @ i = Some x -> da_vals d @ j = Some y -> k @ i = Some p -> k @ j = Some q -> (p < q <-> x < y).
Proof. exact checkAndPrepare_ok. Qed.
Print Assumptions C09_checkAndPreparePermutation.
Theorem C09_checkAndPreparePermutation_throws : forall d,
  checkAndPreparePermutation d = Throw <-> bad_shape d \/ ~ NoDup (da_vals d).
Proof. exact checkAndPrepare_throw. Qed.
Print Assumptions C09_checkAndPreparePermutation_throws.
Theorem C09_buildPermArrPerLevel : forall d, da_alloc d = true -> da_nc d = 1 ->
  exists k, buildPermArrPerLevel d = Ok (Some <$> k) /\ is_perm (da_nt d) k /\
    forall i j x y p q, i < j -> da_vals d @ i = Some x -> da_vals d @ j = Some y -> k @ i = Some p -> k @ j = Some q -> (p < q <-> x <= y).
Proof. exact perLevel_sorts. Qed.
Print Assumptions C09_buildPermArrPerLevel.
Example C09_example : checkAndPreparePermutation (vec [30;-1;7]) = Ok (Some <$> [2;0;1]) /\
  buildPermArrPerLevel (vec [2;0;2;1;0]) = Ok (Some <$> [3;0;4;2;1]) /\ NoDup [30;-1;7].
Proof. split; [done|]. split; [done|]. apply (bool_decide_unpack _). vm_compute. done. Qed.

(** ** C15 *)
Theorem C15_buildComplement : forall d n, da_alloc d = true -> da_nc d = 1 -> 0 <= n -> ~ out_of_range n (da_vals d) ->
  exists k, buildComplement n d = Ok (Some <$> k) /\ enumerates (fun x => 0 <= x < n /\ x ∉ da_vals d) k.
Proof. exact complement_ok. Qed.
Print Assumptions C15_buildComplement.
Theorem C15_buildComplement_throws : forall d n, da_alloc d = true -> da_nc d = 1 ->
  buildComplement n d = Throw <-> n < 0 \/ out_of_range n (da_vals d).
Proof. exact complement_throw. Qed.
Print Assumptions C15_buildComplement_throws.
Theorem C15_involution : forall l n, 0 <= n -> increasing l -> ~ out_of_range n l ->
  exists k, buildComplement n (vec l) = Ok (Some <$> k) /\ buildComplement n (vec k) = Ok (Some <$> l).
Proof. exact complement_involution. Qed.
Print Assumptions C15_involution.
Theorem C15_buildSubstraction : forall d o, da_alloc d = true -> da_nc d = 1 -> da_alloc o = true -> da_nc o = 1 ->
  exists r, buildSubstraction d (Some o) = Ok r /\ enumerates (fun x => x ∈ da_vals d /\ x ∉ da_vals o) r.
Proof. exact substraction_ok. Qed.
Print Assumptions C15_buildSubstraction.
Theorem C15_buildSubstraction_throws : forall d o,
  (buildSubstraction d o = Throw <-> o = None \/ bad_shape d \/ exists o', o = Some o' /\ bad_shape o') /\
  (buildSubstractionOptimized d o = Throw <-> o = None \/ bad_shape d \/ exists o', o = Some o' /\ bad_shape o').
Proof. exact substraction_throw. Qed.
Print Assumptions C15_buildSubstraction_throws.
Theorem C15_optimized : forall l1 l2, increasing l1 -> increasing l2 -> (forall x, x ∈ l2 -> x ∈ l1) ->
  buildSubstractionOptimized (vec l1) (Some (vec l2)) = buildSubstraction (vec l1) (Some (vec l2)).
Proof. exact substractionOptimized_ok. Qed.
Print Assumptions C15_optimized.
Example C15_example : buildComplement 5 (vec [3;1;3]) = Ok (Some <$> [0;2;4]) /\ buildComplement 5 (vec [3;5]) = Throw /\
  buildSubstraction (vec [7;2;7;5]) (Some (vec [5;9])) = Ok [2;7] /\
  buildSubstractionOptimized (vec [2;5;7;8]) (Some (vec [5;8])) = Ok [2;7].
Proof. vm_compute. auto. Qed.

(** ** C16 *)
Theorem C16_BuildUnion : forall arr, (forall d, Some d ∈ arr -> ~ bad_shape d) ->
  exists r, BuildUnion arr = Ok r /\ enumerates (fun x => exists d, Some d ∈ arr /\ x ∈ da_vals d) r.
Proof. exact union_ok. Qed.
Print Assumptions C16_BuildUnion.
Theorem C16_BuildUnion_throws : forall arr, BuildUnion arr = Throw <-> exists d, Some d ∈ arr /\ bad_shape d.
Proof. exact union_throw. Qed.
Print Assumptions C16_BuildUnion_throws.
Theorem C16_BuildIntersection : forall arr, (forall d, Some d ∈ arr -> ~ bad_shape d) -> zlen (notNull arr) <> 1 ->
  exists r, BuildIntersection arr = Ok r /\
    enumerates (fun x => (exists d, Some d ∈ arr) /\ forall d, Some d ∈ arr -> x ∈ da_vals d) r.
Proof. exact intersection_ok. Qed.
Print Assumptions C16_BuildIntersection.
Theorem C16_BuildIntersection_throws : forall arr,
  BuildIntersection arr = Throw <-> (exists d, Some d ∈ arr /\ bad_shape d) \/ zlen (notNull arr) = 1.
Proof. exact intersection_throw. Qed.
Print Assumptions C16_BuildIntersection_throws.
Example C16_example : BuildUnion [Some (vec [3;1]); None; Some (vec [2;3])] = Ok [1;2;3] /\
  BuildIntersection [Some (vec [3;1;4]); None; Some (vec [4;3]); Some (vec [9;4])] = Ok [4] /\ BuildIntersection [Some (vec [3]); None] = Throw.
Proof. vm_compute. auto. Qed.

(** ** C17 *)
Theorem C17_buildUnique : forall d, da_alloc d = true -> da_nc d = 1 -> nondecreasing (da_vals d) ->
  exists r, buildUnique d = Ok r /\ enumerates (fun x => x ∈ da_vals d) r.
Proof. exact unique_ok. Qed.
Print Assumptions C17_buildUnique.
Theorem C17_buildUnique_runs : forall d, da_alloc d = true -> da_nc d = 1 ->
  exists r, buildUnique d = Ok r /\ runs_firsts_from None (da_vals d) r.
Proof. exact unique_runs. Qed.
Print Assumptions C17_buildUnique_runs.
(** [big] is the greatest value of the integer type. *)
Theorem C17_buildUniqueNotSorted : forall big d, da_alloc d = true -> da_nc d = 1 -> da_vals d <> [] ->
  (forall v, v ∈ da_vals d -> - big <= v <= big) -> (forall v w, v ∈ da_vals d -> w ∈ da_vals d -> v - w + 1 <= big) ->
  exists r, buildUniqueNotSorted big d = Ok r /\ first_occurrences (da_vals d) r.
Proof. exact uniqueNotSorted_ok. Qed.
Print Assumptions C17_buildUniqueNotSorted.
(** On an empty array the subtraction max-min overflows: the claim without [da_vals d <> []] is false. *)
Theorem C17_buildUniqueNotSorted_empty_refuted : exists big d, 0 < big /\ da_alloc d = true /\ da_nc d = 1 /\ buildUniqueNotSorted big d = UB.
Proof. exact uniqueNotSorted_empty. Qed.
Print Assumptions C17_buildUniqueNotSorted_empty_refuted.
Theorem C17_getDifferentValues : forall d, da_alloc d = true -> exists r, getDifferentValues d = Ok r /\ enumerates (fun x => x ∈ da_vals d) r.
Proof. exact differentValues_ok. Qed.
Print Assumptions C17_getDifferentValues.
Theorem C17_indexOfSameConsecutiveValueGroups : forall d, da_alloc d = true -> da_nc d = 1 ->
  exists r, indexOfSameConsecutiveValueGroups d = Ok r /\
  enumerates (fun i => i = 0 \/ (0 < i <= zlen (da_vals d) /\ da_vals d @ (i - 1) <> da_vals d @ i)) r.
Proof. exact groups_ok. Qed.
Print Assumptions C17_indexOfSameConsecutiveValueGroups.
Example C17_example : buildUnique (vec [1;1;3;3;8]) = Ok [1;3;8] /\ buildUniqueNotSorted 100 (vec [4;-2;4;0;-2]) = Ok [4;-2;0] /\
  getDifferentValues (DA true 2 [3;1;3;2]) = Ok [1;2;3] /\ indexOfSameConsecutiveValueGroups (vec [7;7;2;7]) = Ok [0;2;3;4].
Proof. vm_compute. auto. Qed.

(** ** C53 *)
Theorem C53_indicesOfSubPart : forall l p, NoDup l -> (forall v, v ∈ p -> v ∈ l) ->
  exists k, indicesOfSubPart (vec l) (vec p) = Ok (Some <$> k) /\ zlen k = zlen p /\
    forall i v, p @ i = Some v -> exists j, k @ i = Some j /\ l @ j = Some v.
Proof. exact indices_ok. Qed.
Print Assumptions C53_indicesOfSubPart.
Theorem C53_indicesOfSubPart_throws : forall l p,
  indicesOfSubPart (vec l) (vec p) = Throw <-> ~ NoDup l \/ exists v, v ∈ p /\ v ∉ l.
Proof. exact indices_throw. Qed.
Print Assumptions C53_indicesOfSubPart_throws.
Theorem C53_findIdForEach : forall d vals, da_alloc d = true -> da_nc d = 1 -> (forall v, v ∈ vals -> v ∈ da_vals d) ->
  exists k, findIdForEach vals d = Ok (Some <$> k) /\ zlen k = zlen vals /\
    forall i v, vals @ i = Some v -> exists p, k @ i = Some p /\ last_pos (da_vals d) v p.
Proof. exact findIdForEach_ok. Qed.
Print Assumptions C53_findIdForEach.
Theorem C53_findIdForEach_throws : forall d vals, da_alloc d = true -> da_nc d = 1 ->
  findIdForEach vals d = Throw <-> exists v, v ∈ vals /\ v ∉ da_vals d.
Proof. exact findIdForEach_throw. Qed.
Print Assumptions C53_findIdForEach_throws.
Theorem C53_occurenceRankInThis : forall d, da_alloc d = true -> da_nc d = 1 ->
  exists k, occurenceRankInThis d = Ok (Some <$> k) /\ zlen k = da_nt d /\
    forall i v, da_vals d @ i = Some v -> k @ i = Some (occ v (take (Z.to_nat i) (da_vals d))).
Proof. exact occRank_ok. Qed.
Print Assumptions C53_occurenceRankInThis.
Example C53_example : indicesOfSubPart (vec [9;10;0;6;4]) (vec [6;10;9;6]) = Ok (Some <$> [3;1;0;3]) /\
  findIdForEach [3;1] (vec [1;3;1]) = Ok (Some <$> [1;2]) /\ occurenceRankInThis (vec [5;3;5;5]) = Ok (Some <$> [0;0;1;2]).
Proof. vm_compute. auto. Qed.
