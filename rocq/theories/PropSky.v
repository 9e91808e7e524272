From Verif Require Import Base DataArray SearchSpec IndexSpec LayoutModel SkyModel SkySpec SkyProofs SkyProofs2 SkyProofs3 SkyProofs4 SkyProofs5 SkyProofs6 SkyProofs7 SkyProofs8.

(** * C37: skyline arrays. *)
Theorem C37_history3 : forall calls pss s pss', sky3 pss s -> run_lists on_lists3 pss calls = Some pss' ->
  exists s', foldM on_array3 calls s = Ok s' /\ sky3 pss' s'.
Proof. exact (run_ok sky3 on_lists3 on_array3 step3_ok). Qed.
Print Assumptions C37_history3.
Theorem C37_history2 : forall calls ps s ps', sky2 ps s -> run_lists on_lists2 ps calls = Some ps' ->
  exists s', foldM on_array2 calls s = Ok s' /\ sky2 ps' s'.
Proof. exact (run_ok sky2 on_lists2 on_array2 step2_ok). Qed.
Print Assumptions C37_history2.
Theorem C37_get : forall ps s k p, sky2 ps s -> ps @ k = Some p -> getSimplePackSafe s k = Ok p.
Proof. exact get_ok. Qed.
Print Assumptions C37_get.
Theorem C37_get_throws : forall ps s k, sky2 ps s -> k < 0 \/ zlen ps < k -> getSimplePackSafe s k = Throw.
Proof. exact getSimple_throw. Qed.
Print Assumptions C37_get_throws.
Theorem C37_deletes_throws : forall ps s ids i strict, sky2 ps s -> i ∈ ids -> i < 0 \/ zlen ps < i -> deleteSimplePacks strict s ids = Throw.
Proof. exact deletes_throw. Qed.
Print Assumptions C37_deletes_throws.
Theorem C37_replaceSimplePacks : forall ps s ids packs, sky2 ps s -> ids <> [] -> (forall i, i ∈ ids -> 0 <= i < zlen ps) -> zlen ids = zlen packs ->
  exists s' old' new' ps', replaceSimplePacks s ids packs = Ok s' /\ sky2 ps' s' /\ s_super s' = s_super s /\
    Forall2 as_set ps old' /\ Forall2 as_set packs new' /\ packs_replaced old' ids new' ps'.
Proof. exact replaces_full. Qed.
Print Assumptions C37_replaceSimplePacks.
Theorem C37_replaceSimplePacks_throws : forall ps s ids packs, sky2 ps s -> ids <> [] ->
  ((exists i, i ∈ ids /\ (i < 0 \/ zlen ps < i)) \/ zlen ids <> zlen packs) -> replaceSimplePacks s ids packs = Throw.
Proof. exact replaces_throw. Qed.
Print Assumptions C37_replaceSimplePacks_throws.
Theorem C37_groupPacks : forall ps s ids, sky2 ps s -> ids <> [] -> nondecreasing ids -> (forall k, k ∈ ids -> 0 <= k <= zlen ps) ->
  exists s', groupPacks s (vec ids) = Ok s' /\ sky2 (grouped ids ps) s'.
Proof. exact group_ok. Qed.
Print Assumptions C37_groupPacks.
Theorem C37_groupPacks_throws : forall ps s ids, sky2 ps s -> ids = [] \/ (exists k, k ∈ ids /\ ~ 0 <= k <= zlen ps) -> groupPacks s (vec ids) = Throw.
Proof. exact group_throw. Qed.
Print Assumptions C37_groupPacks_throws.
Theorem C37_unique : forall ps s, sky2 ps s -> exists s' ps', uniqueNotSortedByPack s = Ok s' /\ sky2 ps' s' /\ Forall2 as_set ps ps'.
Proof. exact unique_full. Qed.
Print Assumptions C37_unique.
Theorem C37_findPackIds : forall pss s ids pack, sky3 pss s -> pack <> [] -> (forall i, i ∈ ids -> 0 <= i < zlen pss) ->
  exists r, findPackIds s ids pack = Ok r /\ Forall2 (fun i r => exists qs, pss @ i = Some qs /\ first_or_none qs pack r) ids r.
Proof. exact find_ok. Qed.
Print Assumptions C37_findPackIds.
Theorem C37_aggregate : forall sks pss n, omap id sks <> [] -> Forall2 sky2 pss (omap id sks) -> (forall ps, ps ∈ pss -> zlen ps = n) ->
  exists s' r, AggregatePacks sks = Ok s' /\ sky2 r s' /\ aggregated pss r.
Proof. exact aggP_ok. Qed.
Print Assumptions C37_aggregate.
Theorem C37_aggregate_throws : forall sks, (forall sk, Some sk ∉ sks) \/ (exists s1 s2, Some s1 ∈ sks /\ Some s2 ∈ sks /\ zlen (s_index s1) <> zlen (s_index s2)) -> AggregatePacks sks = Throw.
Proof. exact aggP_throw. Qed.
Print Assumptions C37_aggregate_throws.
Theorem C37_threshold : forall ps s t, sky2 ps s ->
  exists sl sr, thresholdPerPack s t = Ok (sl, sr) /\ sky2 ((fun p => filter (fun x => x < t) p) <$> ps) sl /\ sky2 ((fun p => filter (fun x => ~ x < t) p) <$> ps) sr.
Proof. exact thr_ok. Qed.
Print Assumptions C37_threshold.
(** An array represents one list of packs only. *)
Theorem C37_determined : forall ps ps' s, sky2 ps s -> sky2 ps' s -> ps = ps'.
Proof. exact sky2_determined. Qed.
Print Assumptions C37_determined.

Definition ex3 : sky := Sky [0; 2; 3] [0; 2; 3; 6] [4; 1; 7; 2; 2; 9].
Example C37_ex : sky3 [[[4; 1]; [7]]; [[2; 2; 9]]] ex3 /\
  run_lists on_lists3 [[[4; 1]; [7]]; [[2; 2; 9]]] [Push 0 [5; 6]; Delete 0 1; Replace 1 0 []; Push 1 [8]] = Some [[[4; 1]; [5; 6]]; [[]; [8]]].
Proof.
  split; [|vm_compute; done]. exists [[4; 1]; [7]; [2; 2; 9]]. split; [exists [], []; done|]. exists [], []. done.
Qed.
Example C37_ex2 : sky2 [[4; 1]; [7]; [2; 2; 9]] ex3 /\ run_lists on_lists2 [[4; 1]; [7]; [2; 2; 9]] [Delete1 1; Replace1 1 [3]; DeleteMany [0; 0]] = Some [[3]] /\
  grouped [0; 1; 3] [[4; 1]; [7]; [2; 2; 9]] = [[4; 1]; [7; 2; 2; 9]].
Proof. split; [exists [], []; done|]. split; vm_compute; done. Qed.

(** One past the last pack is accepted by the checks of the safe getter and of pushBackPack. *)
Theorem C37_get_safe_refuted : forall ps s, sky2 ps s -> getSimplePackSafe s (zlen ps) = UB.
Proof. exact getSimple_end. Qed.
Print Assumptions C37_get_safe_refuted.
Theorem C37_push_safe_refuted : forall pss s p strict, sky3 pss s -> pushBackPack strict s (zlen pss) p = UB.
Proof. exact push_end. Qed.
Print Assumptions C37_push_safe_refuted.
(** An empty pack cannot be deleted. *)
Theorem C37_delete_empty_refuted : forall a b s strict, sky2 (a ++ [] :: b) s -> deleteSimplePack strict s (zlen a) = Throw.
Proof. exact deleteSimple_empty. Qed.
Print Assumptions C37_delete_empty_refuted.
(** Deleting a pack that the super pack does not have (super pack 0 has one pack, number 1 is asked) is not refused: the first super pack loses its pack to the second. *)
Theorem C37_delete_outside_refuted : exists s s', sky3 [[[1]]; [[2]; [3]]] s /\ deletePack false s 0 1 = Ok s' /\ sky3 [[]; [[1]; [3]]] s'.
Proof.
  exists (Sky [0; 1; 3] [0; 1; 2; 3] [1; 2; 3]), (Sky [0; 0; 2] [0; 1; 2] [1; 3]). split; [|split; [vm_compute; done|]].
  - exists [[1]; [2]; [3]]. split; exists [], []; done.
  - exists [[1]; [3]]. split; exists [], []; done.
Qed.
Print Assumptions C37_delete_outside_refuted.
(** replaceSimplePacks changes packs it was not asked to replace. *)
Theorem C37_replace_others_refuted : exists s s', sky2 [[3; 1; 3]; [2]] s /\ replaceSimplePacks s [1] [[5]] = Ok s' /\ sky2 [[1; 3]; [5]] s'.
Proof.
  exists (Sky [] [0; 3; 4] [3; 1; 3; 2]), (Sky [] [0; 2; 3] [1; 3; 5]). split; [exists [], []; done|]. split; [vm_compute; done|]. exists [], []. done.
Qed.
Print Assumptions C37_replace_others_refuted.
(** With the precondition of std::copy taken literally (destination outside the source range), adding a pack is undefined as soon as something follows it. *)
Theorem C37_strict_copy_undefined : exists s, sky3 [[[1]]; [[2; 3]]] s /\ pushBackPack true s 0 [7] = UB.
Proof.
  exists (Sky [0; 1; 2] [0; 1; 3] [1; 2; 3]). split; [|vm_compute; done]. exists [[1]; [2; 3]]. split; exists [], []; done.
Qed.
Print Assumptions C37_strict_copy_undefined.

(** * C38: polyhedra. *)
Theorem C38_build : forall pss, (forall qs, qs ∈ pss -> qs <> []) -> (forall qs f, qs ∈ pss -> f ∈ qs -> -1 ∉ f) ->
  exists s, BuildFromPolyhedronConn (concat (poly_cell <$> pss)) (offs 0 (zlen <$> (poly_cell <$> pss))) = Ok s /\ exact3 pss s.
Proof. exact build_ok. Qed.
Print Assumptions C38_build.
Theorem C38_convert : forall pss s, exact3 pss s -> (forall qs, qs ∈ pss -> qs <> []) ->
  convertToPolyhedronConn s = Ok (Some <$> concat (poly_cell <$> pss), Some <$> offs 0 (zlen <$> (poly_cell <$> pss))).
Proof. exact convert_ok. Qed.
Print Assumptions C38_convert.
(** Any connectivity whose cells all begin with the type id of polyhedra comes back unchanged. *)
Theorem C38_roundtrip : forall ws : list (list Z), let cells := cons 31 <$> ws in
  exists s, BuildFromPolyhedronConn (concat cells) (offs 0 (zlen <$> cells)) = Ok s /\ convertToPolyhedronConn s = Ok (Some <$> concat cells, Some <$> offs 0 (zlen <$> cells)).
Proof. exact conn_roundtrip. Qed.
Print Assumptions C38_roundtrip.
Example C38_ex : let pss := [[[0; 1; 2]; [0; 1; 3]; [1; 2; 3]; [0; 2; 3]]; [[4; 5; 6]; []]] in
  (forall qs, qs ∈ pss -> qs <> []) /\ (forall qs f, qs ∈ pss -> f ∈ qs -> -1 ∉ f) /\
  concat (poly_cell <$> pss) = [31; 0; 1; 2; -1; 0; 1; 3; -1; 1; 2; 3; -1; 0; 2; 3; 31; 4; 5; 6; -1] /\ offs 0 (zlen <$> (poly_cell <$> pss)) = [0; 16; 21].
Proof.
  split; [set_solver|]. split; [|done]. intros qs f Hq Hf. repeat (apply elem_of_cons in Hq as [->|Hq]); [| |by apply elem_of_nil in Hq];
    repeat (apply elem_of_cons in Hf as [->|Hf]); try (by apply elem_of_nil in Hf); apply (bool_decide_unpack _); vm_compute; done.
Qed.
(** A cell without face: the conversion writes after the end of the array; the build reads the type outside the array. *)
Theorem C38_no_face_refuted : (exists s, exact3 [[]] s /\ convertToPolyhedronConn s = UB) /\ BuildFromPolyhedronConn [] [0; 0] = UB.
Proof. split; [|vm_compute; done]. exists (Sky [0; 0] [0] []). split; [done|vm_compute; done]. Qed.
Print Assumptions C38_no_face_refuted.
