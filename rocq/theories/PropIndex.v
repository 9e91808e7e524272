(** C18, C19, C20, C21, C22, C23, C24, C30, C47. *)
From Verif Require Import Base DataArray ArrLib StdProofs SlicesSpec SlicesModel SearchSpec IndexSpec IndexModel FillLib IndexProofs IndexProofs2 IndexProofs3 IndexProofs4 IndexProofs5 IndexProofs6 IndexProofs7.

(** C18: offsets are prefix sums, sizes are differences, each undoes the other. *)
Theorem C18_computeOffsetsFull : forall d, da_alloc d = true -> da_nc d = 1 ->
  exists r, computeOffsetsFull d = Ok (Some <$> r) /\ prefix_sums (da_vals d) r.
Proof. exact offsetsFull_ok. Qed.
Print Assumptions C18_computeOffsetsFull.
Theorem C18_computeOffsets : forall d, da_alloc d = true -> da_nc d = 1 ->
  exists r, computeOffsets d = Ok r /\ zlen r = da_nt d /\
    forall i, 0 <= i < da_nt d -> r @ i = Some (zsum (take (Z.to_nat i) (da_vals d))).
Proof. exact offsets_ok. Qed.
Print Assumptions C18_computeOffsets.
Theorem C18_deltaShiftIndex : forall d, da_alloc d = true -> da_nc d = 1 -> 1 <= da_nt d ->
  exists k, deltaShiftIndex d = Ok (Some <$> k) /\ zlen k = da_nt d - 1 /\
    forall i a b, da_vals d @ i = Some a -> da_vals d @ (i + 1) = Some b -> k @ i = Some (b - a).
Proof. exact delta_ok. Qed.
Print Assumptions C18_deltaShiftIndex.
Theorem C18_deltaShiftIndex_throw : forall d, deltaShiftIndex d = Throw <-> bad_shape d \/ da_nt d < 1.
Proof. exact delta_throw. Qed.
Print Assumptions C18_deltaShiftIndex_throw.
Theorem C18_sizes_of_offsets : forall l,
  exists r, computeOffsetsFull (vec l) = Ok (Some <$> r) /\ deltaShiftIndex (vec r) = Ok (Some <$> l).
Proof. exact offsets_delta. Qed.
Print Assumptions C18_sizes_of_offsets.
Theorem C18_offsets_of_sizes : forall r, r @ 0 = Some 0 ->
  exists k, deltaShiftIndex (vec r) = Ok (Some <$> k) /\ computeOffsetsFull (vec k) = Ok (Some <$> r).
Proof. exact delta_offsets. Qed.
Print Assumptions C18_offsets_of_sizes.
Example C18_ex : computeOffsetsFull (vec [3; 5; 1; 2; 0; 8]) = Ok (Some <$> [0; 3; 8; 9; 11; 11; 19]) /\
  deltaShiftIndex (vec [0; 3; 8; 9; 11; 11; 19]) = Ok (Some <$> [3; 5; 1; 2; 0; 8]) /\
  computeOffsets (vec [3; 5; 1; 2; 0; 8]) = Ok [0; 3; 8; 9; 11; 11] /\ deltaShiftIndex (vec []) = Throw.
Proof. vm_compute. done. Qed.

(** C19: range id and position; the value is the beginning of its range plus its position. *)
Theorem C19_location : forall d r, da_alloc d = true -> da_nc d = 1 -> da_wf r -> da_nc r = 2 ->
  (forall v, v ∈ da_vals d -> exists j, in_range (da_vals r) v j) ->
  exists k q, findRangeIdForEachTuple d (Some r) = Ok (Some <$> k) /\ findIdInRangeForEachTuple d (Some r) = Ok (Some <$> q) /\
    zlen k = da_nt d /\ zlen q = da_nt d /\ forall i v, da_vals d @ i = Some v -> exists j p lo hi, k @ i = Some j /\ q @ i = Some p /\
      da_vals r @ (2 * j) = Some lo /\ da_vals r @ (2 * j + 1) = Some hi /\ lo <= v < hi /\ v = lo + p /\
      forall j', j' < j -> ~ in_range (da_vals r) v j'.
Proof. exact ranges_ok. Qed.
Print Assumptions C19_location.
Theorem C19_throws : forall d r, da_alloc d = true -> da_nc d = 1 -> da_wf r -> da_nc r = 2 ->
  (findRangeIdForEachTuple d (Some r) = Throw <-> exists v, v ∈ da_vals d /\ forall j, ~ in_range (da_vals r) v j) /\
  (findIdInRangeForEachTuple d (Some r) = Throw <-> exists v, v ∈ da_vals d /\ forall j, ~ in_range (da_vals r) v j).
Proof. exact ranges_throw. Qed.
Print Assumptions C19_throws.
Example C19_ex : let r := DA true 2 [0; 3; 5; 8; 8; 12] in
  da_wf r /\ (forall v, v ∈ [6; 11; 0; 8] -> exists j, in_range (da_vals r) v j) /\
  findRangeIdForEachTuple (vec [6; 11; 0; 8]) (Some r) = Ok (Some <$> [1; 2; 0; 2]) /\
  findIdInRangeForEachTuple (vec [6; 11; 0; 8]) (Some r) = Ok (Some <$> [1; 3; 0; 0]) /\
  findRangeIdForEachTuple (vec [6; 3]) (Some r) = Throw.
Proof.
  split; [split; [done|]; exists 3; done|]. split; [|vm_compute; done]. intros v Hv. rewrite !elem_of_cons, elem_of_nil in Hv.
  destruct Hv as [->|[->|[->|[->|[]]]]]; [exists 1|exists 2|exists 0|exists 2]; eexists _, _; repeat (split; [vm_compute; done|]); vm_compute; done.
Qed.

(** C20: concatenation of the blocks of the ids. *)
Theorem C20_explicit : forall d o, da_alloc d = true -> da_nc d = 1 -> da_alloc o = true -> da_nc o = 1 -> forall blks,
  Forall2 (id_block (da_vals o)) (da_vals d) blks -> buildExplicitArrByRanges d (Some o) = Ok (Some <$> concat blks).
Proof. exact explicit_ok. Qed.
Print Assumptions C20_explicit.
Theorem C20_explicit_throws : forall d o, da_alloc d = true -> da_nc d = 1 -> da_alloc o = true -> da_nc o = 1 ->
  buildExplicitArrByRanges d (Some o) = Throw <-> exists id, id ∈ da_vals d /\ forall blk, ~ id_block (da_vals o) id blk.
Proof. exact explicit_throw. Qed.
Print Assumptions C20_explicit_throws.
Theorem C20_scaled : forall d bg stop step ids blks, da_alloc d = true -> da_nc d = 1 -> 0 < da_nt d ->
  valid_range bg stop step -> is_range_list bg stop step ids ->
  Forall2 (rep_block (da_vals d)) ids blks -> buildExplicitArrOfSliceOnScaledArr d bg stop step = Ok (Some <$> concat blks).
Proof. exact scaled_ok. Qed.
Print Assumptions C20_scaled.
Theorem C20_scaled_throws : forall d bg stop step, da_alloc d = true -> da_nc d = 1 ->
  buildExplicitArrOfSliceOnScaledArr d bg stop step = Throw <->
  da_nt d = 0 \/ ~ valid_range bg stop step \/
  exists ids id, is_range_list bg stop step ids /\ id ∈ ids /\ forall blk, ~ rep_block (da_vals d) id blk.
Proof. exact scaled_throw. Qed.
Print Assumptions C20_scaled_throws.
Example C20_ex : Forall2 (id_block [0; 3; 6; 10; 14; 20]) [0; 2; 3] [[0; 1; 2]; [6; 7; 8; 9]; [10; 11; 12; 13]] /\
  buildExplicitArrByRanges (vec [0; 2; 3]) (Some (vec [0; 3; 6; 10; 14; 20])) = Ok (Some <$> [0; 1; 2; 6; 7; 8; 9; 10; 11; 12; 13]) /\
  buildExplicitArrByRanges (vec [5]) (Some (vec [0; 3; 6; 10; 14; 20])) = Throw /\
  buildExplicitArrByRanges (vec [0]) (Some (vec [4; 3])) = Throw /\
  buildExplicitArrOfSliceOnScaledArr (vec [0; 3; 6; 10; 14; 20]) 0 5 2 = Ok (Some <$> [0; 0; 0; 2; 2; 2; 2; 4; 4; 4; 4; 4; 4]).
Proof. split; [|vm_compute; done]. repeat constructor; eexists _, _; repeat (split; [vm_compute; done|]); vm_compute; done. Qed.

(** C21: exactly the ranges entirely present, provided the list of ids does not stop inside a range it fills from its
    beginning.  Without this proviso the function reads after the end of the list. *)
Theorem C21_rangesInList_partial : forall d li, da_alloc d = true -> da_nc d = 1 -> da_alloc li = true -> da_nc li = 1 ->
  increasing (da_vals d) -> increasing (da_vals li) -> 0 < zlen (da_vals d) -> ~ ends_inside (da_vals d) (da_vals li) ->
  exists ret0 ret1 blks, findIdsRangesInListOfIds d (Some li) = Ok (ret0, ret1) /\
    enumerates (range_full (da_vals d) (da_vals li)) ret0 /\ Forall2 (id_block (da_vals d)) ret0 blks /\ ret1 = concat blks.
Proof. exact rangesInList_ok. Qed.
Print Assumptions C21_rangesInList_partial.
Theorem C21_rangesInList_safe_refuted : exists off ids, increasing off /\ increasing ids /\
  findIdsRangesInListOfIds (vec off) (Some (vec ids)) = UB.
Proof. exact rangesInList_refuted. Qed.
Print Assumptions C21_rangesInList_safe_refuted.
Example C21_ex : increasing [0; 3; 8; 9; 15; 18] /\ increasing [4; 5; 6; 7; 8; 9; 10; 12; 15; 16; 17; 20] /\
  ~ ends_inside [0; 3; 8; 9; 15; 18] [4; 5; 6; 7; 8; 9; 10; 12; 15; 16; 17; 20] /\
  findIdsRangesInListOfIds (vec [0; 3; 8; 9; 15; 18]) (Some (vec [4; 5; 6; 7; 8; 9; 10; 12; 15; 16; 17; 20])) = Ok ([2; 4], [8; 15; 16; 17]).
Proof.
  split; [apply increasing_SS; repeat constructor; lia|]. split; [apply increasing_SS; repeat constructor; lia|]. split; [|vm_compute; done].
  intros (j & a & b & v & Ha & Hb & Hv & H1 & H2 & _). vm_compute in Hv. injection Hv as <-. apply elem_of_zlook_1 in Hb. rewrite !elem_of_cons, elem_of_nil in Hb. lia.
Qed.

(** C22. *)
Theorem C22_extract : forall A (d : da A) (x : da Z), da_alloc d = true -> da_nc d = 1 -> da_alloc x = true -> da_nc x = 1 -> 1 <= da_nt x ->
  forall ids ps, Forall2 (pack (da_vals d) (da_vals x)) ids ps ->
  exists k r, ExtractFromIndexedArrays ids (Some d) (Some x) = Ok (Some <$> k, Some <$> r) /\ skyline ps k r.
Proof. exact @extract_ok. Qed.
Print Assumptions C22_extract.
Theorem C22_extract_throws : forall A (d : da A) (x : da Z), da_alloc d = true -> da_nc d = 1 -> da_alloc x = true -> da_nc x = 1 -> 1 <= da_nt x ->
  forall ids, ExtractFromIndexedArrays ids (Some d) (Some x) = Throw <-> exists i, i ∈ ids /\ forall p, ~ pack (da_vals d) (da_vals x) i p.
Proof. exact @extract_throw. Qed.
Print Assumptions C22_extract_throws.
Theorem C22_extract_slice : forall A (d : da A) (x : da Z), da_alloc d = true -> da_nc d = 1 -> da_alloc x = true -> da_nc x = 1 -> 1 <= da_nt x ->
  forall start stop step ids, valid_range start stop step -> is_range_list start stop step ids ->
  ExtractFromIndexedArraysSlice start stop step (Some d) (Some x) = ExtractFromIndexedArrays ids (Some d) (Some x).
Proof. exact @extractSlice_same. Qed.
Print Assumptions C22_extract_slice.
Theorem C22_put_skyline : forall A (v : list (list A)),
  exists k r, PutIntoToSkylineFrmt v = Ok (Some <$> k, Some <$> r) /\ skyline v k r.
Proof. exact @put_ok. Qed.
Print Assumptions C22_put_skyline.
Example C22_ex : let vals := [10; 11; 12; 20; 30; 31] in let idx := [0; 3; 4; 4; 6] in
  Forall2 (pack vals idx) [3; 0; 2; 3] [[30; 31]; [10; 11; 12]; []; [30; 31]] /\
  ExtractFromIndexedArrays [3; 0; 2; 3] (Some (vec vals)) (Some (vec idx)) = Ok (Some <$> [30; 31; 10; 11; 12; 30; 31], Some <$> [0; 2; 5; 5; 7]) /\
  ExtractFromIndexedArraysSlice 3 (-1) (-2) (Some (vec vals)) (Some (vec idx)) = Ok (Some <$> [30; 31; 20], Some <$> [0; 2; 3]) /\
  ExtractFromIndexedArrays [4] (Some (vec vals)) (Some (vec idx)) = Throw /\
  ExtractFromIndexedArrays [0] (Some (vec vals)) (Some (vec [5; 7])) = Throw /\
  PutIntoToSkylineFrmt [[30; 31]; []; [20]] = Ok (Some <$> [30; 31; 20], Some <$> [0; 2; 2; 3]).
Proof. split; [|vm_compute; done]. repeat constructor; eexists _, _; repeat (split; [vm_compute; done|]); vm_compute; done. Qed.

(** C23: [news] are the packs of the source. *)
Theorem C23_set : forall A (old : list (list A)) arr idx src srcIdx ids news,
  skyline old arr idx -> (forall k p, news @ k = Some p -> pack src srcIdx k p) -> zlen ids = zlen news ->
  (forall i, i ∈ ids -> 0 <= i < zlen old) -> NoDup ids ->
  exists k r res, SetPartOfIndexedArrays ids arr idx src srcIdx = Ok (Some <$> k, Some <$> r) /\ packs_replaced old ids news res /\ skyline res k r.
Proof. exact @setpart_full. Qed.
Print Assumptions C23_set.
Theorem C23_set_throws : forall A (old : list (list A)) arr idx src srcIdx ids,
  skyline old arr idx -> zlen ids < zlen srcIdx -> (exists i, i ∈ ids /\ ~ 0 <= i < zlen old) ->
  SetPartOfIndexedArrays ids arr idx src srcIdx = Throw.
Proof. exact @setpart_throw. Qed.
Print Assumptions C23_set_throws.
Theorem C23_set_slice : forall A (old : list (list A)) arr idx src srcIdx start stop step ids news,
  skyline old arr idx -> (forall k p, news @ k = Some p -> pack src srcIdx k p) -> zlen ids = zlen news ->
  (forall i, i ∈ ids -> 0 <= i < zlen old) -> valid_range start stop step -> is_range_list start stop step ids ->
  exists k r res, SetPartOfIndexedArraysSlice start stop step arr idx src srcIdx = Ok (Some <$> k, Some <$> r) /\ packs_replaced old ids news res /\ skyline res k r.
Proof. exact @setpart_slice_full. Qed.
Print Assumptions C23_set_slice.
Theorem C23_set_slice_throws : forall A (old : list (list A)) arr idx src srcIdx start stop step ids,
  skyline old arr idx -> valid_range start stop step -> is_range_list start stop step ids ->
  zlen ids < zlen srcIdx -> (exists i, i ∈ ids /\ ~ 0 <= i < zlen old) -> SetPartOfIndexedArraysSlice start stop step arr idx src srcIdx = Throw.
Proof. exact @setpart_slice_throw. Qed.
Print Assumptions C23_set_slice_throws.
(** C23, in place, when the sizes of the packs agree (repeated ids allowed: the last one wins). *)
Theorem C23_same_idx : forall A (old : list (list A)) arr idx src srcIdx ids news,
  skyline old arr idx -> (forall k p, news @ k = Some p -> pack src srcIdx k p) -> zlen ids = zlen news ->
  (forall k i p, ids @ k = Some i -> news @ k = Some p -> exists q, old @ i = Some q /\ zlen q = zlen p) ->
  exists r res, SetPartOfIndexedArraysSameIdx ids arr idx src srcIdx = Ok r /\ packs_replaced old ids news res /\ skyline res r idx.
Proof. exact @same_ok. Qed.
Print Assumptions C23_same_idx.
Theorem C23_same_idx_throws : forall A (old : list (list A)) arr idx src srcIdx ids news,
  skyline old arr idx -> (forall k p, news @ k = Some p -> pack src srcIdx k p) -> zlen ids = zlen news ->
  SetPartOfIndexedArraysSameIdx ids arr idx src srcIdx = Throw <->
  exists k i p, ids @ k = Some i /\ news @ k = Some p /\ forall q, old @ i = Some q -> zlen q <> zlen p.
Proof. exact @same_throw. Qed.
Print Assumptions C23_same_idx_throws.
Theorem C23_same_idx_slice : forall A (arr : list A) idx src srcIdx start stop step ids,
  valid_range start stop step -> is_range_list start stop step ids ->
  SetPartOfIndexedArraysSameIdxSlice start stop step arr idx src srcIdx = SetPartOfIndexedArraysSameIdx ids arr idx src srcIdx.
Proof. exact @same_slice. Qed.
Print Assumptions C23_same_idx_slice.
Example C23_ex : let old := [[10; 11; 12]; [20]; []; [30; 31]] in let arr := [10; 11; 12; 20; 30; 31] in let idx := [0; 3; 4; 4; 6] in
  skyline old arr idx /\ pack [1; 2; 3; 4] [0; 1; 4] 0 [1] /\ pack [1; 2; 3; 4] [0; 1; 4] 1 [2; 3; 4] /\
  SetPartOfIndexedArrays [3; 1] arr idx [1; 2; 3; 4] [0; 1; 4] = Ok (Some <$> [10; 11; 12; 2; 3; 4; 1], Some <$> [0; 3; 6; 6; 7]) /\
  SetPartOfIndexedArraysSlice 3 0 (-2) arr idx [1; 2; 3; 4] [0; 1; 4] = Ok (Some <$> [10; 11; 12; 2; 3; 4; 1], Some <$> [0; 3; 6; 6; 7]) /\
  SetPartOfIndexedArrays [4] arr idx [1; 2; 3; 4] [0; 1; 4] = Throw /\
  SetPartOfIndexedArraysSameIdx [1; 0] arr idx [1; 2; 3; 4] [0; 1; 4] = Ok [2; 3; 4; 1; 30; 31] /\
  SetPartOfIndexedArraysSameIdx [0; 1] arr idx [1; 2; 3; 4] [0; 1; 4] = Throw /\
  SetPartOfIndexedArraysSameIdxSlice 1 (-1) (-1) arr idx [1; 2; 3; 4] [0; 1; 4] = Ok [2; 3; 4; 1; 30; 31].
Proof.
  split; [split; [done|]; apply skyline_idx; done|]. split; [eexists _, _; repeat (split; [vm_compute; done|]); vm_compute; done|].
  split; [eexists _, _; repeat (split; [vm_compute; done|]); vm_compute; done|]. vm_compute. done.
Qed.
(** Repeated ids are outside of the claim: with them the result buffer keeps an uninitialised slot. *)
Example C23_repeated_ids : SetPartOfIndexedArrays [0; 0] [1; 2] [0; 1; 2] [7; 8; 9; 9] [0; 2; 4] = Ok ([Some 7; Some 8; Some 2; None], [Some 0; Some 2; Some 3]).
Proof. vm_compute. done. Qed.

(** C24: whatever the offset, what is left of each pack is its tail from [off] on without the values of [ids]: for a null
    offset this is the claim; for a positive offset the values before it are lost, contrary to the claim. *)
Theorem C24_remove_partial : forall ps arr idx ids off, skyline ps arr idx -> 0 <= off ->
  exists fl arr' idx', RemoveIdsFromIndexedArrays ids (Some arr) (Some idx) off = Ok (fl, arr', idx') /\
    skyline ((fun p => filter (fun v => v ∉ ids) (drop (Z.to_nat off) p)) <$> ps) arr' idx' /\
    (fl = false <-> (fun p => filter (fun v => v ∉ ids) (drop (Z.to_nat off) p)) <$> ps = ps).
Proof. exact remove_ok. Qed.
Print Assumptions C24_remove_partial.
Theorem C24_remove_offset0_partial : forall ps arr idx ids, skyline ps arr idx ->
  exists fl arr' idx', RemoveIdsFromIndexedArrays ids (Some arr) (Some idx) 0 = Ok (fl, arr', idx') /\
    skyline (filter (fun v => v ∉ ids) <$> ps) arr' idx' /\ (fl = false <-> forall v, v ∈ arr -> v ∉ ids).
Proof. exact remove0_ok. Qed.
Print Assumptions C24_remove_offset0_partial.
Theorem C24_remove_offset_refuted : exists ps arr idx ids off fl arr' idx', skyline ps arr idx /\ 0 < off /\
  RemoveIdsFromIndexedArrays ids (Some arr) (Some idx) off = Ok (fl, arr', idx') /\
  ~ skyline ((fun p => take (Z.to_nat off) p ++ filter (fun v => v ∉ ids) (drop (Z.to_nat off) p)) <$> ps) arr' idx'.
Proof. exact remove_off_refuted. Qed.
Print Assumptions C24_remove_offset_refuted.
Example C24_ex : skyline [[10; 11; 12]; [20]; []; [11; 31]] [10; 11; 12; 20; 11; 31] [0; 3; 4; 4; 6] /\
  RemoveIdsFromIndexedArrays [11; 20] (Some [10; 11; 12; 20; 11; 31]) (Some [0; 3; 4; 4; 6]) 0 = Ok (true, [10; 12; 31], [0; 2; 2; 2; 3]) /\
  RemoveIdsFromIndexedArrays [13] (Some [10; 11; 12; 20; 11; 31]) (Some [0; 3; 4; 4; 6]) 0 = Ok (false, [10; 11; 12; 20; 11; 31], [0; 3; 4; 4; 6]).
Proof. split; [split; [done|]; apply skyline_idx; done|]. vm_compute. done. Qed.

(** C30: n consecutive intervals from 0 to the number of tuples; each one but the last stops at the first tuple where the
    cumulated weight reaches the target (total weight divided by the number of slices). *)
Theorem C30_slices : forall d n, da_alloc d = true -> da_nc d = 1 -> 0 < n ->
  exists r, splitInBalancedSlices d n = Ok r /\ zlen r = n /\ chain_of_intervals 0 (da_nt d) r /\
    forall i x y, i < n - 1 -> r @ i = Some (x, y) ->
      (y < zlen (da_vals d) -> Z.quot (zsum (da_vals d)) n <= zsum (sub (da_vals d) x y)) /\
      (x < y -> zsum (sub (da_vals d) x (y - 1)) < Z.quot (zsum (da_vals d)) n).
Proof. exact split_ok. Qed.
Print Assumptions C30_slices.
Theorem C30_throws : forall d n, splitInBalancedSlices d n = Throw <-> bad_shape d \/ n <= 0.
Proof. exact split_throw. Qed.
Print Assumptions C30_throws.
Example C30_ex : splitInBalancedSlices (vec [4; 3; 3; 1; 2; 3; 2; 2; 3; 3; 3; 5; 6; 2; 1; 4]) 4 = Ok [(0, 4); (4, 9); (9, 12); (12, 16)] /\
  splitInBalancedSlices (vec [4; 3]) 0 = Throw.
Proof. vm_compute. done. Qed.

(** C47. *)
Theorem C47_aggregate : forall A (arr : list (option (da A))) c, omap id arr <> [] -> (forall d, Some d ∈ arr -> da_wf d /\ da_nc d = c) ->
  Aggregate arr = Ok (DA true c (Some <$> concat (da_vals <$> omap id arr))).
Proof. exact @aggregate_ok. Qed.
Print Assumptions C47_aggregate.
Theorem C47_aggregate_throws : forall A (arr : list (option (da A))), (forall d, Some d ∈ arr -> da_wf d) ->
  Aggregate arr = Throw <-> (forall d, Some d ∉ arr) \/ exists d e, Some d ∈ arr /\ Some e ∈ arr /\ da_nc d <> da_nc e.
Proof. exact @aggregate_throw. Qed.
Print Assumptions C47_aggregate_throws.
Theorem C47_aggregate2 : forall A (a1 a2 : da A) off, da_wf a1 -> da_wf a2 -> da_nc a1 = da_nc a2 -> 0 <= off <= da_nt a2 ->
  Aggregate2 (Some a1) (Some a2) off = Ok (DA true (da_nc a1) (Some <$> (da_vals a1 ++ drop (Z.to_nat (off * da_nc a1)) (da_vals a2)))).
Proof. exact @aggregate2_ok. Qed.
Print Assumptions C47_aggregate2.
Theorem C47_aggregate2_throws : forall A (a1 a2 : option (da A)) off,
  (forall a, a1 = Some a -> da_wf a) -> (forall a, a2 = Some a -> da_wf a /\ 0 <= off <= da_nt a) ->
  Aggregate2 a1 a2 off = Throw <-> a1 = None \/ a2 = None \/ exists x y, a1 = Some x /\ a2 = Some y /\ da_nc x <> da_nc y.
Proof. exact @aggregate2_throw. Qed.
Print Assumptions C47_aggregate2_throws.
Theorem C47_aggregateIndexes : forall arrs lss, arrs <> [] ->
  Forall2 (fun o ls => exists d, o = Some d /\ da_alloc d = true /\ da_nc d = 1 /\ prefix_sums ls (da_vals d)) arrs lss ->
  exists r, AggregateIndexes arrs = Ok (Some <$> r) /\ prefix_sums (concat lss) r.
Proof. exact aggregateIndexes_ok. Qed.
Print Assumptions C47_aggregateIndexes.
Theorem C47_aggregateIndexes_throws : forall arrs, AggregateIndexes arrs = Throw <->
  arrs = [] \/ exists o, o ∈ arrs /\ match o with None => True | Some d => da_alloc d = false \/ da_nc d <> 1 \/ da_vals d @ 0 <> Some 0 end.
Proof. exact aggregateIndexes_throw. Qed.
Print Assumptions C47_aggregateIndexes_throws.
Example C47_ex :
  Aggregate [Some (DA true 2 [1; 2; 3; 4]); None; Some (DA true 2 [5; 6])] = Ok (DA true 2 (Some <$> [1; 2; 3; 4; 5; 6])) /\
  Aggregate [Some (DA true 2 [1; 2]); Some (DA true 1 [5])] = Throw /\
  Aggregate2 (Some (DA true 2 [1; 2])) (Some (DA true 2 [5; 6; 7; 8])) 1 = Ok (DA true 2 (Some <$> [1; 2; 7; 8])) /\
  AggregateIndexes [Some (vec [0; 2; 5]); Some (vec [0]); Some (vec [0; 1; 4])] = Ok (Some <$> [0; 2; 5; 6; 9]) /\
  AggregateIndexes [Some (vec [1; 2])] = Throw.
Proof. vm_compute. done. Qed.
