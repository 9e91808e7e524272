(** C25, C26, C27, C28, C29. *)
From Verif Require Import Base DataArray ArrLib StdProofs StdModel RenumSpec SearchSpec IndexSpec PartSpec PartModel SetsModel SetsProofs PartProofs PartProofs2 PartProofs3 PartProofs4 PartProofs5 PartProofs6 PartProofs7 PartProofs8.

(** C25: families are the coarsest partition compatible with the groups.  [groups] may hold null arrays, which are ignored;
    [n] must fit the 32 bits counter of the code. *)
Theorem C25_families : forall groups n, 0 <= n <= 2147483647 -> let gs := omap id groups in
  (forall g v, g ∈ gs -> v ∈ da_vals g -> 0 <= v < n) ->
  exists fam fids, MakePartition groups n = Ok (Some <$> fam, fids) /\ zlen fam = n /\
    (forall i j f f', fam @ i = Some f -> fam @ j = Some f' -> f = f' <-> forall g, g ∈ gs -> i ∈ da_vals g <-> j ∈ da_vals g) /\
    (exists K, 0 <= K /\ forall f, f ∈ fam <-> 1 <= f < 1 + K) /\ ordered_by_first fam /\ zlen fids = zlen gs /\
    forall k g, gs @ k = Some g -> exists l, fids @ k = Some l /\ enumerates (fun f => exists e, e ∈ da_vals g /\ fam @ e = Some f) l /\
      forall e, e ∈ da_vals g <-> exists f, fam @ e = Some f /\ f ∈ l.
Proof. exact partition_ok. Qed.
Print Assumptions C25_families.
Theorem C25_families_throw : forall groups n, 0 <= n <= 2147483647 ->
  MakePartition groups n = Throw <-> exists g, Some g ∈ groups /\ out_of_range n (da_vals g).
Proof. exact partition_throw. Qed.
Print Assumptions C25_families_throw.
(** The int counter: a larger number of elements is not handled, whatever the groups. *)
Theorem C25_counter_refuted : exists groups, forall n, 2147483647 < n -> MakePartition groups n = UB.
Proof. exact partition_overflow. Qed.
Print Assumptions C25_counter_refuted.
Example C25_ex : MakePartition [Some (vec [3; 1]); None; Some (vec [1; 4; 0])] 5 = Ok (Some <$> [1; 2; 3; 4; 1], [[2; 4]; [1; 2]]) /\
  MakePartition [Some (vec [5])] 5 = Throw.
Proof. vm_compute. done. Qed.

(** C26: grouping of equal values. *)
Theorem C26_partitionByDifferentValues : forall d, da_alloc d = true -> da_nc d = 1 ->
  exists (ls : list (list Z)) (dif : list Z),
  partitionByDifferentValues d = Ok ((fun l : list Z => Some <$> l) <$> ls, dif) /\
  enumerates (fun v => v ∈ da_vals d) dif /\ zlen ls = zlen dif /\
  forall k v, dif @ k = Some v -> exists l, ls @ k = Some l /\ enumerates (fun i => da_vals d @ i = Some v) l.
Proof. exact partitionDV_ok. Qed.
Print Assumptions C26_partitionByDifferentValues.
Theorem C26_partitionByDifferentValues_throw : forall d, partitionByDifferentValues d = Throw <-> bad_shape d.
Proof. exact partitionDV_throw. Qed.
Print Assumptions C26_partitionByDifferentValues_throw.
Theorem C26_indexOfSameConsecutiveValueGroups : forall d, da_alloc d = true -> da_nc d = 1 ->
  exists r, indexOfSameConsecutiveValueGroups d = Ok r /\
  enumerates (fun i => i = 0 \/ (0 < i <= zlen (da_vals d) /\ da_vals d @ (i - 1) <> da_vals d @ i)) r.
Proof. exact SetsProofs.groups_ok. Qed.
Print Assumptions C26_indexOfSameConsecutiveValueGroups.
Example C26_ex : partitionByDifferentValues (vec [1; 0; 1; 2; 0; 2; 2; -3; 2]) =
  Ok ((fun l : list Z => Some <$> l) <$> [[7]; [1; 4]; [0; 2]; [3; 5; 6; 8]], [-3; 0; 1; 2]).
Proof. vm_compute. done. Qed.

(** C27: surjective maps and packs. *)
Theorem C27_changeSurjectiveFormat : forall d n, da_alloc d = true -> da_nc d = 1 -> 0 <= n ->
  (forall v, v ∈ da_vals d -> 0 <= v < n) ->
  exists ps arr arrI, changeSurjectiveFormat d n = Ok (Some <$> arr, Some <$> arrI) /\ skyline ps arr arrI /\ zlen ps = n /\
    forall k p, ps @ k = Some p -> enumerates (fun i => da_vals d @ i = Some k) p.
Proof. exact surj_ok. Qed.
Print Assumptions C27_changeSurjectiveFormat.
Theorem C27_changeSurjectiveFormat_throw : forall d n,
  changeSurjectiveFormat d n = Throw <-> bad_shape d \/ n < 0 \/ out_of_range n (da_vals d).
Proof. exact surj_throw. Qed.
Print Assumptions C27_changeSurjectiveFormat_throw.
(** Packs are disjoint, not empty, and begin with their smallest element. *)
Theorem C27_convertIndexArrayToO2N_partial : forall ps n, 0 <= n -> (forall g g' p p' x, ps @ g = Some p -> ps @ g' = Some p' -> x ∈ p -> x ∈ p' -> g = g') ->
  (forall p, p ∈ ps -> exists h, p @ 0 = Some h /\ 0 <= h < n /\ forall x, x ∈ p -> h <= x) ->
  forall arr arrI, skyline ps arr arrI -> (forall x, x ∈ concat ps -> 0 <= x < n) ->
  exists r K, ConvertIndexArrayToO2N n arr arrI = Ok (Some <$> r, K) /\ zlen r = n /\
    (forall i j a b, r @ i = Some a -> r @ j = Some b -> a = b <-> i = j \/ exists p, p ∈ ps /\ i ∈ p /\ j ∈ p) /\
    (forall v, v ∈ r <-> 0 <= v < K) /\ ordered_by_first r.
Proof. exact o2n_conv_ok. Qed.
Print Assumptions C27_convertIndexArrayToO2N_partial.
Theorem C27_convertIndexArrayToO2N_throw_partial : forall ps n, 0 <= n -> (forall g g' p p' x, ps @ g = Some p -> ps @ g' = Some p' -> x ∈ p -> x ∈ p' -> g = g') ->
  (forall p, p ∈ ps -> exists h, p @ 0 = Some h /\ 0 <= h < n /\ forall x, x ∈ p -> h <= x) ->
  forall arr arrI, skyline ps arr arrI ->
  ConvertIndexArrayToO2N n arr arrI = Throw <-> exists x, x ∈ concat ps /\ ~ 0 <= x < n.
Proof. exact o2n_conv_throw. Qed.
Print Assumptions C27_convertIndexArrayToO2N_throw_partial.
(** A pack that does not begin with its smallest element: numbers are no longer contiguous. *)
Theorem C27_unsorted_pack_refuted : exists n ps arr arrI r K v, NoDup (concat ps) /\ skyline ps arr arrI /\
  (forall x, x ∈ concat ps -> 0 <= x < n) /\ ConvertIndexArrayToO2N n arr arrI = Ok (Some <$> r, K) /\ 0 <= v < K /\ v ∉ r.
Proof. exact o2n_unsorted. Qed.
Print Assumptions C27_unsorted_pack_refuted.
(** A first element out of range is not detected, nor an empty last pack. *)
Theorem C27_first_element_refuted : exists n ps arr arrI, NoDup (concat ps) /\ (forall p, p ∈ ps -> p <> []) /\
  skyline ps arr arrI /\ ConvertIndexArrayToO2N n arr arrI = UB.
Proof. exact o2n_bad_first. Qed.
Print Assumptions C27_first_element_refuted.
Theorem C27_empty_pack_refuted : exists n ps arr arrI, NoDup (concat ps) /\ (forall x, x ∈ concat ps -> 0 <= x < n) /\
  skyline ps arr arrI /\ ConvertIndexArrayToO2N n arr arrI = UB.
Proof. exact o2n_empty_pack. Qed.
Print Assumptions C27_empty_pack_refuted.
Example C27_ex : changeSurjectiveFormat (vec [0; 3; 2; 3; 2; 2; 1; 2]) 4 = Ok (Some <$> [0; 6; 2; 4; 5; 7; 1; 3], Some <$> [0; 1; 2; 6; 8]) /\
  ConvertIndexArrayToO2N 10 [0; 3; 5; 7; 9] [0; 3; 5] = Ok (Some <$> [0; 1; 2; 0; 3; 0; 4; 5; 6; 5], 7).
Proof. vm_compute. done. Qed.

(** C28: gathering pairs into groups.  Every pair is inside a group, every group only holds linked ids; when the groups returned are
    disjoint they are exactly the connected components. *)
Theorem C28_groups_partial : forall d, da_alloc d = true -> da_wf d -> da_nc d = 2 -> exists ps arr idx,
  fromListOfPairsToIndexArray d = Ok (Some <$> arr, Some <$> idx) /\ skyline ps arr idx /\
  (forall p, p ∈ ps -> p <> [] /\ increasing p /\ forall a b, a ∈ p -> b ∈ p -> a ∈ da_vals d /\ linked (da_vals d) a b) /\
  (forall a b, paired (da_vals d) a b -> exists p, p ∈ ps /\ a ∈ p /\ b ∈ p) /\
  ((forall p q a, p ∈ ps -> q ∈ ps -> a ∈ p -> a ∈ q -> p = q) ->
   forall p a b, p ∈ ps -> a ∈ p -> b ∈ p <-> linked (da_vals d) a b).
Proof. exact pairs_groups. Qed.
Print Assumptions C28_groups_partial.
Theorem C28_throw : forall d, da_wf d -> fromListOfPairsToIndexArray d = Throw <-> da_alloc d = false \/ da_nc d <> 2.
Proof. exact pairs_throw. Qed.
Print Assumptions C28_throw.
(** The groups returned may overlap: ids linked by a chain are then in different groups. *)
Theorem C28_disjoint_refuted : exists d ps arr idx p q a b, da_alloc d = true /\ da_wf d /\ da_nc d = 2 /\
  fromListOfPairsToIndexArray d = Ok (Some <$> arr, Some <$> idx) /\ skyline ps arr idx /\
  p ∈ ps /\ q ∈ ps /\ p <> q /\ a ∈ p /\ a ∈ q /\ b ∈ q /\ b ∉ p /\ linked (da_vals d) a b.
Proof. exact pairs_overlap. Qed.
Print Assumptions C28_disjoint_refuted.
Example C28_ex : fromListOfPairsToIndexArray (DA true 2 [10; 5; 5; 6; 9; 8; 20; 9]) = Ok (Some <$> [5; 6; 10; 8; 9; 20], Some <$> [0; 3; 6]) /\
  fromListOfPairsToIndexArray (vec [0; 1]) = Throw.
Proof. vm_compute. done. Qed.

(** C29: chains of pairs. *)
Theorem C29_splitPairsIntoChains : forall d, da_alloc d = true -> da_wf d -> da_nc d = 2 -> exists ps cs, da_vals d = flat ps /\
  splitPairsIntoChains d = Ok (flat <$> cs) /\ (exists l, l ≡ₚ ps /\ Forall2 same_pair (concat cs) l) /\
  (forall c, c ∈ cs -> c <> [] /\ consecutive c) /\
  (forall i j c c' e, i <> j -> cs @ i = Some c -> cs @ j = Some c' -> chain_end c e -> ~ chain_end c' e).
Proof. exact split_ok. Qed.
Print Assumptions C29_splitPairsIntoChains.
Theorem C29_sortToHaveConsecutivePairs : forall d r, da_wf d -> sortToHaveConsecutivePairs d = Ok r ->
  exists ps c, da_vals d = flat ps /\ r = flat c /\ consecutive c /\ exists l, l ≡ₚ ps /\ Forall2 same_pair c l.
Proof. exact sortChain_ok. Qed.
Print Assumptions C29_sortToHaveConsecutivePairs.
(** When no id is in more than two pairs, the method throws only if the pairs are not connected. *)
Theorem C29_sortToHaveConsecutivePairs_throw : forall d, da_wf d -> da_alloc d = true -> da_nc d = 2 -> (forall x, occ x (da_vals d) <= 2) ->
  sortToHaveConsecutivePairs d = Throw <-> exists a b, a ∈ da_vals d /\ b ∈ da_vals d /\ ~ linked (da_vals d) a b.
Proof. exact sortChain_throw. Qed.
Print Assumptions C29_sortToHaveConsecutivePairs_throw.
Theorem C29_sortEachPairToMakeALinkedList : forall d xs, da_alloc d = true -> da_wf d -> da_nc d = 2 -> 2 <= da_nt d ->
  node_path (da_vals d) (da_nt d) xs ->
  exists r, sortEachPairToMakeALinkedList d = Ok r /\ zlen r = zlen (da_vals d) /\
    forall k, 0 <= k < da_nt d -> r @ (2 * k) = xs @ k /\ r @ (2 * k + 1) = xs @ (k + 1).
Proof. exact link_ok. Qed.
Print Assumptions C29_sortEachPairToMakeALinkedList.
Theorem C29_sortEachPairToMakeALinkedList_throw : forall d, da_wf d ->
  sortEachPairToMakeALinkedList d = Throw <->
  da_alloc d = false \/ da_nc d <> 2 \/ (2 <= da_nt d /\ forall xs, ~ node_path (da_vals d) (da_nt d) xs).
Proof. exact link_throw. Qed.
Print Assumptions C29_sortEachPairToMakeALinkedList_throw.
Theorem C29_sortEachPairToMakeALinkedList_one : forall d, da_alloc d = true -> da_nc d = 2 -> da_nt d <= 1 ->
  sortEachPairToMakeALinkedList d = Ok (da_vals d).
Proof. exact link_small. Qed.
Print Assumptions C29_sortEachPairToMakeALinkedList_one.
Theorem C29_fromLinkedListOfPairToList : forall d ps, da_alloc d = true -> da_wf d -> da_nc d = 2 -> da_vals d = flat ps -> ps <> [] -> consecutive ps ->
  exists r, fromLinkedListOfPairToList d = Ok (Some <$> r) /\ zlen r = zlen ps + 1 /\
    forall i p, ps @ i = Some p -> r @ i = Some p.1 /\ r @ (i + 1) = Some p.2.
Proof. exact nodes_ok. Qed.
Print Assumptions C29_fromLinkedListOfPairToList.
Theorem C29_fromLinkedListOfPairToList_throw : forall d ps, da_wf d -> da_vals d = flat ps -> da_alloc d = true -> da_nc d = 2 ->
  fromLinkedListOfPairToList d = Throw <-> ps = [] \/ ~ consecutive ps.
Proof. exact nodes_throw. Qed.
Print Assumptions C29_fromLinkedListOfPairToList_throw.
Theorem C29_roundtrip : forall d xs, da_alloc d = true -> da_wf d -> da_nc d = 2 -> 2 <= da_nt d -> node_path (da_vals d) (da_nt d) xs ->
  exists r, sortEachPairToMakeALinkedList d = Ok r /\ fromLinkedListOfPairToList (DA true 2 r) = Ok (Some <$> xs).
Proof. exact link_roundtrip. Qed.
Print Assumptions C29_roundtrip.
(** An id in three pairs: the closed loop is built first, and a trail through all the pairs is missed. *)
Theorem C29_trail_missed : exists d c, da_alloc d = true /\ da_wf d /\ da_nc d = 2 /\ consecutive c /\
  (exists ps l, da_vals d = flat ps /\ l ≡ₚ ps /\ Forall2 same_pair c l) /\ sortToHaveConsecutivePairs d = Throw.
Proof. exact trail_missed. Qed.
Print Assumptions C29_trail_missed.
Example C29_ex : splitPairsIntoChains (DA true 2 [3; 4; 7; 8; 4; 5; 9; 8]) = Ok [[3; 4; 4; 5]; [7; 8; 8; 9]] /\
  sortToHaveConsecutivePairs (DA true 2 [1; 2; 4; 3; 2; 3]) = Ok [1; 2; 2; 3; 3; 4] /\
  sortEachPairToMakeALinkedList (DA true 2 [2; 1; 3; 2; 3; 4]) = Ok [1; 2; 2; 3; 3; 4] /\
  fromLinkedListOfPairToList (DA true 2 [1; 2; 2; 3; 3; 4]) = Ok (Some <$> [1; 2; 3; 4]) /\
  node_path [2; 1; 3; 2] 2 [1; 2; 3].
Proof.
  do 4 (split; [vm_compute; done|]). apply (path_intro2 _ (2, 1) (3, 2)); try done; [right|right]; done.
Qed.
