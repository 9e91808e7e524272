(** C64: the nodes of an unstructured mesh: in use, renumbered, merged, duplicated. *)
From Coq Require Import QArith.
From stdpp Require Import gmap.
From Verif Require Import Base DataArray FillLib IndexSpec RenumSpec TreeSpec UmModel UmSpec UmProofs2 UmProofs4 UmProofs5 UmProofs6.
Local Open Scope Z_scope.

(** computeFetchedNodeIds: the nodes of the cells, in order, each once. *)
Theorem C64_fetched m cells : stores m cells -> exists l, computeFetchedNodeIds m = Ok l /\ ascending l /\ forall n, n ∈ l <-> used cells n.
Proof. exact (fetched_ok m cells). Qed.
Print Assumptions C64_fetched.
Theorem C64_all_fetched m cells nb : stores m cells -> has_nodes m nb -> (forall k, used cells k -> k < nb) ->
  exists b, areAllNodesFetched m = Ok b /\ (b = true <-> forall n, 0 <= n < nb -> used cells n).
Proof. exact (allFetched_ok m cells nb). Qed.
Print Assumptions C64_all_fetched.

(** getNodeIdsInUse: each node in use gets its rank, the others -1; it throws when a cell has a node out of the coordinates. *)
Theorem C64_in_use m cells nb : stores m cells -> has_nodes m nb ->
  wp (getNodeIdsInUse m) (fun r => zlen r.1 = nb /\ (forall n, used cells n -> n < nb) /\ rank_in cells nb r.2 /\
    forall n, 0 <= n < nb -> (used cells n -> exists k, rank_in cells n k /\ r.1 @ n = Some k) /\ (~ used cells n -> r.1 @ n = Some (-1))) (exists n, used cells n /\ nb <= n).
Proof. exact (inUse_wp m cells nb). Qed.
Print Assumptions C64_in_use.

(** The numbering of the nodes in the connectivity only: by an array, by an offset, by a map. *)
Theorem C64_conn m cells p : stores m cells -> (forall v, used cells v -> v < zlen p) ->
  exists m', renumberNodesInConn m p = Ok m' /\ stores m' (rename (ren p) <$> cells) /\ same_but_conn m m'.
Proof. exact (renumberConn_ok m cells p). Qed.
Print Assumptions C64_conn.
Theorem C64_offset m cells o : stores m cells -> exists m', renumberNodesWithOffsetInConn m o = Ok m' /\ stores m' (rename (fun v => v + o) <$> cells) /\ same_but_conn m m'.
Proof. exact (offset_ok m cells o). Qed.
Print Assumptions C64_offset.
Theorem C64_map m cells (p : gmap Z Z) : stores m cells -> (forall v, used cells v -> is_Some (p !! v)) ->
  exists m', renumberNodesInConnT m p = Ok m' /\ stores m' (rename (fun v => default (-1) (p !! v)) <$> cells) /\ same_but_conn m m'.
Proof. exact (mapConn_ok m cells p). Qed.
Print Assumptions C64_map.
Theorem C64_map_throws m cells (p : gmap Z Z) : stores m cells -> renumberNodesInConnT m p = Throw <-> exists v, used cells v /\ p !! v = None.
Proof. exact (mapConn_throw m cells p). Qed.
Print Assumptions C64_map_throws.

(** renumberNodes: the cells have their nodes renamed, and a new node takes the place of the last old one sent to it. *)
Theorem C64_renumber m cells nb p newNb d : stores m cells -> typed m cells -> um_coords m = Some d -> da_alloc d = true -> da_wf d -> 0 < da_nc d -> da_nt d = nb ->
  (forall n, used cells n -> n < nb) -> zlen p = nb -> 0 <= newNb -> (forall v, v ∈ p -> v < newNb) -> (forall t, 0 <= t < newNb -> t ∈ p) ->
  exists m', renumberNodes m p newNb = Ok m' /\ stores m' (rename (ren p) <$> cells) /\ typed m' (rename (ren p) <$> cells) /\ um_dim m' = um_dim m /\ has_nodes m' newNb /\ (exists d', um_coords m' = Some d' /\ da_nc d' = da_nc d) /\
    forall t i q, 0 <= t -> last_pos p t i -> point m i q -> point m' t q.
Proof. exact (renumberNodes_ok m cells nb p newNb d). Qed.
Print Assumptions C64_renumber.

(** renumberNodesCenter: a new node is the barycenter of the old ones sent to it. *)
Theorem C64_center m cells nb d p newNb : stores m cells -> typed m cells -> um_coords m = Some d -> da_wf d -> 0 < da_nc d -> da_nt d = nb ->
  (forall n, used cells n -> n < nb) -> zlen p = nb -> 0 <= newNb -> (forall v, v ∈ p -> 0 <= v < newNb) -> (forall t, 0 <= t < newNb -> t ∈ p) ->
  exists m', renumberNodesCenter m p newNb = Ok m' /\ stores m' (rename (ren p) <$> cells) /\ typed m' (rename (ren p) <$> cells) /\ um_dim m' = um_dim m /\ has_nodes m' newNb /\
  exists d', um_coords m' = Some d' /\ da_nc d' = da_nc d /\ forall t k, 0 <= t < newNb -> 0 <= k < da_nc d -> exists y, da_vals d' @ (t * da_nc d + k) = Some y /\ (y * inject_Z (zlen (origins p t)) == qsum ((fun i => at_ (da_vals d) (da_nc d) i k) <$> origins p t))%Q.
Proof. intros H1 H2 H3 H4 H5 H6 H7 H8 H9 H10 H11. eapply center_ok; eassumption. Qed.
Print Assumptions C64_center.

(** zipCoordsTraducer removes the nodes without a cell and keeps the others, in order and in place. *)
Theorem C64_zip m cells nb d : stores m cells -> typed m cells -> um_coords m = Some d -> da_alloc d = true -> da_wf d -> 0 < da_nc d -> da_nt d = nb -> (forall n, used cells n -> n < nb) ->
  exists m' tr k, zipCoordsTraducer m = Ok (m', tr) /\ zlen tr = nb /\ stores m' (rename (ren tr) <$> cells) /\ typed m' (rename (ren tr) <$> cells) /\ um_dim m' = um_dim m /\ has_nodes m' k /\
    (forall n, 0 <= n < nb -> ~ used cells n -> tr @ n = Some (-1)) /\
    (forall n, used cells n -> exists t, tr @ n = Some t /\ rank_in cells n t /\ forall q, point m n q -> point m' t q) /\
    (forall t, 0 <= t < k <-> used (rename (ren tr) <$> cells) t).
Proof. exact (zip_ok m cells nb d). Qed.
Print Assumptions C64_zip.

(** mergeNodes, when nearness is transitive on the nodes: the near nodes and only they become one, and no node moves by more than the precision. *)
Theorem C64_merge m cells nb d prec : stores m cells -> typed m cells -> um_coords m = Some d -> da_alloc d = true -> da_wf d -> 1 <= da_nc d <= 4 -> da_nt d = nb -> (forall n, used cells n -> n < nb) ->
  transitive_on nb (fun i j => near (da_vals d) (da_nc d) i prec (da_vals d) j) ->
  exists m' r K, mergeNodes m prec = Ok (m', r, negb (nb =? K), K) /\ merged nb d prec r K /\
  stores m' (rename (ren r) <$> cells) /\ typed m' (rename (ren r) <$> cells) /\ um_dim m' = um_dim m /\ has_nodes m' K /\
  (forall a i q, last_pos r a i -> point m i q -> point m' a q) /\
  (forall i a q q', r @ i = Some a -> point m i q -> point m' a q' -> close prec q q').
Proof. intros H1 H2 H3 H4 H5 H6 H7 H8 H9. exact (merge_ok m cells nb d prec H1 H2 H3 H4 H5 H6 H7 H8 H9). Qed.
Print Assumptions C64_merge.
Theorem C64_merge_throws m cells prec d : stores m cells -> um_coords m = Some d -> da_wf d -> ~ (da_alloc d = true /\ 1 <= da_nc d <= 4) -> mergeNodes m prec = Throw.
Proof. exact (merge_throw m cells prec d). Qed.
Print Assumptions C64_merge_throws.
Theorem C64_merge_center m cells nb d prec : stores m cells -> typed m cells -> um_coords m = Some d -> da_alloc d = true -> da_wf d -> 1 <= da_nc d <= 4 -> da_nt d = nb -> (forall n, used cells n -> n < nb) ->
  transitive_on nb (fun i j => near (da_vals d) (da_nc d) i prec (da_vals d) j) ->
  exists m' r K, mergeNodesCenter m prec = Ok (m', r, negb (nb =? K), K) /\ merged nb d prec r K /\
    stores m' (rename (ren r) <$> cells) /\ typed m' (rename (ren r) <$> cells) /\ um_dim m' = um_dim m /\ has_nodes m' K /\
    exists d', um_coords m' = Some d' /\ da_nc d' = da_nc d /\ forall t k, 0 <= t < K -> 0 <= k < da_nc d -> exists y, da_vals d' @ (t * da_nc d + k) = Some y /\ (y * inject_Z (zlen (origins r t)) == qsum ((fun i => at_ (da_vals d) (da_nc d) i k) <$> origins r t))%Q.
Proof. exact (center_merge_ok m cells nb d prec). Qed.
Print Assumptions C64_merge_center.

(** duplicateNodes: the cells lie on the copies; a node listed twice is replaced by its last copy. *)
Theorem C64_duplicate m cells nb ids d : stores m cells -> typed m cells -> um_coords m = Some d -> da_alloc d = true -> da_wf d -> 0 < da_nc d -> da_nt d = nb -> (forall v, v ∈ ids -> 0 <= v < nb) ->
  exists m' f, duplicateNodes m ids = Ok m' /\ stores m' (rename f <$> cells) /\ typed m' (rename f <$> cells) /\ um_dim m' = um_dim m /\ has_nodes m' (nb + zlen ids) /\
    (forall v, v ∉ ids -> f v = v) /\ (forall v, v ∈ ids -> exists k, last_pos ids v k /\ f v = nb + k) /\
    (forall n q, point m n q -> point m' n q) /\ (forall k v q, ids @ k = Some v -> point m v q -> point m' (nb + k) q).
Proof. exact (duplicate_ok m cells nb ids d). Qed.
Print Assumptions C64_duplicate.
Theorem C64_duplicate_throws m cells nb ids d : stores m cells -> um_coords m = Some d -> da_alloc d = true -> da_wf d -> da_nt d = nb -> (exists v, v ∈ ids /\ ~ 0 <= v < nb) -> duplicateNodes m ids = Throw.
Proof. exact (duplicate_throw m cells nb ids d). Qed.
Print Assumptions C64_duplicate_throws.

(** Without transitivity: of three points at -1, 0, 1 merged at 6/5, the one at -1 is moved to 1. *)
Definition line3 : umesh := UM 1 (Some (DA true 1 [0%Q; (-1)%Q; 1%Q])) (Some [1; 0; 1; 1; 1; 2]) (Some [0; 3; 6]) [1].
Theorem C64_merge_refuted : ~ forall m prec m' r b K i a q q', mergeNodes m prec = Ok (m', r, b, K) -> r @ i = Some a -> point m i q -> point m' a q' -> close prec q q'.
Proof.
  intros H. specialize (H line3 (6#5)%Q (UM 1 (Some (DA true 1 [1%Q])) (Some [1; 0; 0; 1; 0; 0]) (Some [0; 3; 6]) [1]) [0; 0; 0] true 1 1 0 [(-1)%Q] [1%Q]).
  specialize (H eq_refl eq_refl). assert (C : close (6#5) [(-1)%Q] [1%Q]).
  - apply H; (eexists; split; [reflexivity|]; split; [reflexivity|]; split; [split; vm_compute; congruence|reflexivity]).
  - inversion C as [|? ? ? ? Hq]. vm_compute in Hq. congruence.
Qed.
Print Assumptions C64_merge_refuted.

(** The documentation places the cells on the copy of the first occurrence of the node in the list: it is the last one. *)
Definition square : umesh := UM 2 (Some (DA true 2 [0%Q; 0%Q; 1%Q; 0%Q; 1%Q; 1%Q; 0%Q; 1%Q; 5%Q; 5%Q])) (Some [3; 0; 1; 2; 3; 0; 2; 3]) (Some [0; 4; 8]) [3].
Theorem C64_duplicate_refuted : ~ forall m cells nb ids m', stores m cells -> has_nodes m nb -> duplicateNodes m ids = Ok m' ->
  forall v k, used cells v -> first_pos ids v k -> exists cells', stores m' cells' /\ used cells' (nb + k).
Proof.
  intros H. specialize (H square [(3, [0; 1; 2]); (3, [0; 2; 3])] 5 [1; 1]).
  destruct (H _ ltac:(eexists _, _; split; [reflexivity|]; split; [reflexivity|]; split; [reflexivity|exact (psums_ok [4; 4])])
    ltac:(eexists; split; [reflexivity|]; split; [reflexivity|]; split; [split; [vm_compute; congruence|]; exists 5; split; [vm_compute; congruence|reflexivity]|reflexivity])
    eq_refl 1 0) as (cells' & (conn & connI & E1 & E2 & Hs & _) & _ & c & Hc & Hn).
  - split; [lia|]. eexists. split; [left|]. right. left.
  - split; [reflexivity|]. intros k Hk E. apply zlook_Some_lt in E. lia.
  - injection E1 as <-. assert (Hin : 5 ∈ concat ((fun c : cell => c.1 :: c.2) <$> cells')).
    { apply elem_of_list_In, in_concat. exists (c.1 :: c.2). split; [apply elem_of_list_In, elem_of_list_fmap; eauto|apply elem_of_list_In; by right]. }
    rewrite <- Hs in Hin. revert Hin. apply (bool_decide_unpack (5 ∉ _)). vm_compute. exact I.
Qed.
Print Assumptions C64_duplicate_refuted.

(** renumberNodes is documented to remove the nodes with a negative new number: a used one splits a face of its polyhedron. *)
Theorem C64_remove_refuted : ~ forall m cells p k m', stores m cells -> renumberNodes m p k = Ok m' -> exists cells', stores m' cells' /\ forall c, c ∈ cells' -> forall v, v ∈ c.2 -> v = -1 -> exists c0, c0 ∈ cells /\ -1 ∈ c0.2.
Proof.
  intros H. specialize (H square [(3, [0; 1; 2]); (3, [0; 2; 3])] [0; -1; 1; 2; 3] 4).
  destruct (H _ ltac:(eexists _, _; split; [reflexivity|]; split; [reflexivity|]; split; [reflexivity|exact (psums_ok [4; 4])]) eq_refl) as (cells' & (conn & connI & E1 & E2 & Hs & Hp) & Hc).
  injection E1 as <-. injection E2 as <-.
  assert (Hin : exists c, c ∈ cells' /\ -1 ∈ c.2).
  { destruct cells' as [|[t1 n1] cells']; [discriminate Hs|]. exists (t1, n1). split; [left|]. destruct Hp as (Hl & Hp). cbn [fmap list_fmap fst snd concat app] in Hs. injection Hs as -> Hs.
    specialize (Hp 1 ltac:(rewrite !fmap_cons, !zlen_cons; pose proof (zlen_nonneg (zlen <$> ((fun c : cell => c.1 :: c.2) <$> cells'))); lia)). rewrite !fmap_cons in Hp. change (Z.to_nat 1) with 1%nat in Hp. cbn [firstn] in Hp. rewrite firstn_O in Hp. unfold zsum in Hp. cbn [foldr fst snd] in Hp.
    change ([0; 4; 8] @ 1) with (Some 4) in Hp. apply (f_equal (default 0)) in Hp. change (4 = zlen (t1 :: n1) + 0) in Hp. rewrite zlen_cons in Hp. destruct n1 as [|a [|b n1]]; [change (zlen (@nil Z)) with 0 in Hp; lia|change (zlen [a]) with 1 in Hp; lia|]. injection Hs as <- <- _. right. left. }
  destruct Hin as (c & Hc1 & Hc2). destruct (Hc c Hc1 (-1) Hc2 eq_refl) as (c0 & Hc0 & Hm). revert Hm. repeat (apply elem_of_cons in Hc0 as [->|Hc0]; [apply (bool_decide_unpack (_ ∉ _)); vm_compute; exact I|]). inversion Hc0.
Qed.
Print Assumptions C64_remove_refuted.

(** Two triangles with a node aside, and two segments with a common end given twice. *)
Definition segs : umesh := UM 1 (Some (DA true 1 [0%Q; 1%Q; 1%Q; 2%Q])) (Some [1; 0; 1; 1; 2; 3]) (Some [0; 3; 6]) [1].
Example C64_ex : stores square [(3, [0; 1; 2]); (3, [0; 2; 3])] /\ typed square [(3, [0; 1; 2]); (3, [0; 2; 3])] /\ has_nodes square 5 /\
  computeFetchedNodeIds square = Ok [0; 1; 2; 3] /\ areAllNodesFetched square = Ok false /\ getNodeIdsInUse square = Ok ([0; 1; 2; 3; -1], 4) /\
  zipCoordsTraducer square = Ok (UM 2 (Some (DA true 2 [0%Q; 0%Q; 1%Q; 0%Q; 1%Q; 1%Q; 0%Q; 1%Q])) (Some [3; 0; 1; 2; 3; 0; 2; 3]) (Some [0; 4; 8]) [3], [0; 1; 2; 3; -1]) /\
  transitive_on 4 (fun i j => near [0%Q; 1%Q; 1%Q; 2%Q] 1 i (1#10) [0%Q; 1%Q; 1%Q; 2%Q] j) /\
  mergeNodes segs (1#10) = Ok (UM 1 (Some (DA true 1 [0%Q; 1%Q; 2%Q])) (Some [1; 0; 1; 1; 1; 2]) (Some [0; 3; 6]) [1], [0; 1; 1; 2], true, 3) /\
  duplicateNodes segs [1; 3] = Ok (UM 1 (Some (DA true 1 [0%Q; 1%Q; 1%Q; 2%Q; 1%Q; 2%Q])) (Some [1; 0; 4; 1; 2; 5]) (Some [0; 3; 6]) [1]).
Proof.
  split; [eexists _, _; split; [reflexivity|]; split; [reflexivity|]; split; [reflexivity|exact (psums_ok [4; 4])]|].
  split. { split; [split; [intros y Hy; inversion Hy|exact I]|]. intros t. split; [intros Ht%elem_of_list_singleton; eexists; split; [left|done]|]. intros (c & Hc & E). repeat (apply elem_of_cons in Hc as [->|Hc]; [subst; left|]). inversion Hc. }
  split; [eexists; split; [reflexivity|]; split; [reflexivity|]; split; [split; [vm_compute; congruence|]; exists 5; split; [vm_compute; congruence|reflexivity]|reflexivity]|].
  split; [reflexivity|]. split; [reflexivity|]. split; [reflexivity|]. split; [reflexivity|]. split; [|split; reflexivity].
  intros i j k Hi Hj Hk H1 H2 c Hc. assert (c = 0) as -> by lia. specialize (H1 0 ltac:(lia)). specialize (H2 0 ltac:(lia)). revert H1 H2.
  assert (Hx : forall x, 0 <= x < 4 -> x = 0 \/ x = 1 \/ x = 2 \/ x = 3) by lia.
  destruct (Hx i Hi) as [->|[->|[->| ->]]], (Hx j Hj) as [->|[->|[->| ->]]], (Hx k Hk) as [->|[->|[->| ->]]]; vm_compute; intros; congruence || (exfalso; auto; congruence).
Qed.
