(** Range of a field, part of a field on nodes. *)
From Coq Require Import QArith Qabs ZifyBool ZifyNat.
From Verif Require Import Base DataArray ArrLib StdModel StdProofs RenumModel RenumSpec RenumProofs RenumProofs2 SlicesModel SlicesSpec SlicesProofs IndexSpec IndexModel IndexProofs IndexProofs2 PermProofs FillLib CellTable SkyModel SkyProofs UmModel UmSpec UmProofs UmProofs2 UmProofs5 UmProofs9 UmProofs10 UcModel GlModel GlSpec GlProofs FdModel FdSpec FdProofs FdProofs2 FdProofs3 FdProofs4.
Local Open Scope Z_scope.

(** * Ranges of tuples *)
Lemma rangeOf_ok size ns b e : (forall i v, ns @ i = Some v -> size i = Ok v) -> 0 <= b <= e ->
  rangeOfTuples size (zlen ns) b e = Ok (zsum (take (Z.to_nat b) ns), zsum (take (Z.to_nat (e + 1)) ns)).
Proof.
  intros H Hb. unfold rangeOfTuples. match goal with |- context [forZ ?x ?y ?f ?s0] => assert (W : wp (forZ x y f s0) (fun s => s.1 = (zsum (take (Z.to_nat b) ns), zsum (take (Z.to_nat (e + 1)) ns))) False) end.
  { apply (wp_forZ (fun i s => s = (zsum (take (Z.to_nat (Z.min i b)) ns), zsum (take (Z.to_nat (Z.min i (e + 1))) ns), e <? i))); [apply zlen_nonneg|rewrite !Z.min_l by lia; by replace (e <? 0) with false by lia| |].
    - intros i s Hi ->. cbn beta iota. destruct (Z.ltb_spec e i) as [E|E]; cbn [wp].
      + rewrite !Z.min_r by lia. by replace (e <? i + 1) with true by lia.
      + destruct (zlook_lt ns i Hi) as [v Hv]. rewrite (H i v Hv). cbn [bind wp]. rewrite (Z.min_l i (e + 1)), (Z.min_l (i + 1) (e + 1)) by lia. rewrite (zsum_take_succ _ _ _ Hv). destruct (Z.ltb_spec i b) as [E'|E'].
        * rewrite (Z.min_l i b), (Z.min_l (i + 1) b) by lia. rewrite (zsum_take_succ _ _ _ Hv). apply f_equal2; [done|lia].
        * rewrite (Z.min_r i b), (Z.min_r (i + 1) b) by lia. apply f_equal2; [done|lia].
    - intros s ->. cbn [fst]. assert (Hm : forall k, 0 <= k -> take (Z.to_nat (Z.min (zlen ns) k)) ns = take (Z.to_nat k) ns); [|rewrite (Hm b) by lia; rewrite (Hm (e + 1)) by lia; done]. intros k Hk. destruct (Z.min_spec (zlen ns) k) as [[? ->]|[? ->]]; [|done]. rewrite !firstn_all2; [done|unfold zlen in *; lia..]. }
  apply wp_ok in W as ([[bo eo] st] & -> & E). cbn in E. injection E as -> ->. done.
Qed.
Lemma rangeOf_total size ns b e : (forall i v, ns @ i = Some v -> size i = Ok v) -> exists bo eo, rangeOfTuples size (zlen ns) b e = Ok (bo, eo).
Proof.
  intros H. unfold rangeOfTuples. match goal with |- context [forZ ?x ?y ?f ?s0] => assert (W : wp (forZ x y f s0) (fun _ => True) False) end.
  { apply (wp_forZ (fun _ _ => True)); [apply zlen_nonneg|done| |done]. intros i [[x y] st] Hi _. destruct st; [done|]. destruct (zlook_lt ns i Hi) as [v Hv]. by rewrite (H i v Hv). }
  apply wp_ok in W as ([[bo eo] st] & -> & _). cbn [bind]. by eexists _, _.
Qed.
Lemma blocks_seq ns b n : (forall v, v ∈ ns -> 0 <= v) -> 0 <= b -> 0 <= n -> b + n <= zlen ns -> blocks ns (seqZ b n) = seqZ (zsum (take (Z.to_nat b) ns)) (zsum (take (Z.to_nat (b + n)) ns) - zsum (take (Z.to_nat b) ns)) /\ zsum (take (Z.to_nat b) ns) <= zsum (take (Z.to_nat (b + n)) ns).
Proof.
  intros Hp Hb Hn Hle. pose proof (blocks_id ns (b + n) Hp ltac:(lia)) as E. pose proof (blocks_id ns b Hp ltac:(lia)) as E'.
  assert (Hs : zsum (take (Z.to_nat b) ns) <= zsum (take (Z.to_nat (b + n)) ns)).
  { replace (take (Z.to_nat b) ns) with (take (Z.to_nat b) (take (Z.to_nat (b + n)) ns)) by (rewrite take_take; f_equal; lia). rewrite <- (take_drop (Z.to_nat b) (take (Z.to_nat (b + n)) ns)) at 2. rewrite zsum_app. assert (0 <= zsum (drop (Z.to_nat b) (take (Z.to_nat (b + n)) ns))); [|lia]. apply zsum_nonneg. intros v Hv. apply Hp. apply elem_of_list_lookup in Hv as [k Hk]. rewrite lookup_drop in Hk. apply elem_of_list_lookup_2, elem_of_take in Hk as (j & Hj & _). by eapply elem_of_list_lookup_2. }
  split; [|done]. rewrite (seqZ_plus 0 b n) in E by lia. unfold blocks in *. rewrite fmap_app, concat_app, E', Z.add_0_l in E. pose proof (zsum_take_nonneg ns b Hp). replace (zsum (take (Z.to_nat (b + n)) ns)) with (zsum (take (Z.to_nat b) ns) + (zsum (take (Z.to_nat (b + n)) ns) - zsum (take (Z.to_nat b) ns))) in E at 1 by lia.
  rewrite (seqZ_plus 0) in E by lia. apply app_inv_head in E. rewrite Z.add_0_l in E. exact E.
Qed.
Lemma range_one b n : 0 <= n -> valid_range b (b + n) 1 /\ is_range_list b (b + n) 1 (seqZ b n).
Proof.
  intros Hn. split; [split; [lia|split; lia]|]. intros k v. split.
  - intros H. apply zlook_Some_lt in H as Hk. rewrite zlen_seqZ in Hk. rewrite zlook_seqZ in H by lia. injection H as <-. unfold before. split; [lia|]. split; [lia|]. left. lia.
  - intros (Hk & -> & Hb). unfold before in Hb. rewrite zlook_seqZ by lia. f_equal. lia.
Qed.
Lemma range_unique b e s l l' : is_range_list b e s l -> is_range_list b e s l' -> l = l'.
Proof. intros H H'. apply zlook_ext. intros k. destruct (l @ k) as [v|] eqn:E. - apply H in E. apply H' in E. done. - destruct (l' @ k) as [v|] eqn:E'; [|done]. apply H' in E'. apply H in E'. congruence. Qed.

Lemma sliceOf_ok m cells b e s ids sel : stores m cells -> 0 <= um_dim m -> is_Some (um_coords m) -> valid_range b e s -> is_range_list b e s ids -> picked cells ids sel ->
  exists m', buildPartOfMySelfSlice m b e s = Ok m' /\ stores m' sel /\ typed m' sel /\ um_dim m' = um_dim m /\ um_coords m' = um_coords m.
Proof. intros Hs Hd Hc Hv Hr Hp. unfold buildPartOfMySelfSlice, getMeshDimension. replace (um_dim m <? -1) with false by lia. cbn [ifthrow bind]. replace (um_dim m =? -1) with false by lia. cbn [negb]. by apply (slice_ok m cells b e s ids sel). Qed.
Lemma partRange_ok m cells b e s ids sel : stores m cells -> 0 <= um_dim m -> is_Some (um_coords m) -> valid_range b e s -> is_range_list b e s ids -> picked cells ids sel ->
  exists m', buildPartRange m b e s = Ok m' /\ stores m' sel /\ um_dim m' = um_dim m /\ um_coords m' = um_coords m.
Proof.
  intros Hs Hd Hc Hv Hr Hp. unfold buildPartRange. rewrite (numCells_ok m cells Hs). cbn [bind]. destruct ((b =? 0) && (e =? zlen cells) && (s =? 1)) eqn:E; [|destruct (sliceOf_ok _ _ _ _ _ _ _ Hs Hd Hc Hv Hr Hp) as (m' & ? & ? & _ & ? & ?); by exists m'].
  assert (b = 0 /\ e = zlen cells /\ s = 1) as (-> & -> & ->) by lia. exists m. split; [done|]. split; [|done]. pose proof (zlen_nonneg cells). destruct (range_one 0 (zlen cells) ltac:(lia)) as [_ H']. rewrite (range_unique _ _ _ _ _ Hr H') in Hp. assert (sel = cells) as ->; [|done].
  apply zlook_ext. intros k. pose proof (picked_len _ _ _ Hp) as Hl. rewrite zlen_seqZ in Hl. destruct (decide (0 <= k < zlen cells)) as [Hk|Hk]; [apply (picked_look _ _ _ _ _ Hp); rewrite zlook_seqZ by lia; f_equal; lia|]. rewrite (proj2 (zlook_None _ _)), (proj2 (zlook_None _ _)); [done|lia|lia].
Qed.
Lemma partRange_throw m cells b e s : stores m cells -> 0 <= um_dim m -> is_Some (um_coords m) -> (~ valid_range b e s \/ exists ids v, is_range_list b e s ids /\ v ∈ ids /\ ~ 0 <= v < zlen cells) -> buildPartOfMySelfSlice m b e s = Throw /\ buildPartRange m b e s = Throw.
Proof.
  intros Hs Hd Hc H. assert (E : buildPartOfMySelfSlice m b e s = Throw). { unfold buildPartOfMySelfSlice, getMeshDimension. replace (um_dim m <? -1) with false by lia. cbn [ifthrow bind]. replace (um_dim m =? -1) with false by lia. cbn [negb]. by apply (slice_throw m cells). }
  split; [done|]. unfold buildPartRange. rewrite (numCells_ok m cells Hs). cbn [bind]. destruct ((b =? 0) && (e =? zlen cells) && (s =? 1)) eqn:Eq; [|done]. exfalso. assert (b = 0 /\ e = zlen cells /\ s = 1) as (-> & -> & ->) by lia. pose proof (zlen_nonneg cells). destruct (range_one 0 (zlen cells) ltac:(lia)) as [Hv Hr]. rewrite Z.add_0_l in Hv, Hr.
  destruct H as [H|(ids & v & H1 & H2 & H3)]; [done|]. rewrite (range_unique _ _ _ _ _ H1 Hr) in H2. apply elem_of_seqZ in H2. lia.
Qed.
Lemma clone_range (f : disc) b e s ids n : (forall g dpc, f = GaussPt g -> gd_dpc g = Some dpc -> zlen dpc = n) -> valid_range b e s -> is_range_list b e s ids -> (forall v, v ∈ ids -> 0 <= v < n) -> clonePartRange f b e s = clonePart f ids.
Proof.
  intros Hn Hv Hr Hin. destruct f as [| |g|]; [done..| |done]. cbn [clonePartRange clonePart]. destruct (gd_dpc g) as [dpc|] eqn:E; [|done]. rewrite (selectSlice_ok (vec dpc) b e s ids); [done|done|apply da_wf_vec|done|done|]. rewrite da_nt_vec. by rewrite (Hn g dpc eq_refl E).
Qed.
Lemma gauss_size g i v dpc : gsize g dpc i = Ok v -> (let* w := rd dpc i in throw_if w =? -1 >>> throw_if negb ((0 <=? w) && (w <? zlen (gd_loc g))) >>> let* l := rd (gd_loc g) w in Ok (getNumberOfGaussPt l)) = Ok v.
Proof. intros H. destruct (gtest _ _ _ _ H) as (w & l & Hw & Hl & Hb & ->). rewrite (rd_ok _ _ _ Hw). cbn [bind]. replace (w =? -1) with false by lia. cbn [ifthrow]. replace ((0 <=? w) && (w <? zlen (gd_loc g))) with true by lia. cbn [negb ifthrow]. by rewrite (rd_ok _ _ _ Hl). Qed.

(** The range as a part: one value per cell, or a step other than one, or up to the last cell. *)
Lemma range_field {A} (f : field A) cells ns b e s ids sel : carries f cells ns -> 0 <= um_dim (fd_mesh f) -> is_Some (um_coords (fd_mesh f)) -> (fd_disc f = GaussNE -> forall c, c ∈ cells -> whole c) ->
  valid_range b e s -> is_range_list b e s ids -> picked cells ids sel -> fd_disc f = P0 \/ s <> 1 \/ e = zlen cells ->
  exists f' ns', buildSubPartRange f b e s = Ok f' /\ carries f' sel ns' /\ same_kind (fd_disc f) (fd_disc f') /\ um_dim (fd_mesh f') = um_dim (fd_mesh f) /\ um_coords (fd_mesh f') = um_coords (fd_mesh f) /\
    forall q i, ids @ q = Some i -> same_cell f cells ns i f' sel ns' q.
Proof.
  intros Hf Hd Hco Hw Hv Hr Hp Hcase. pose proof Hf as (Hs & Hz & Ha). pose proof (picked_range _ _ _ Hp) as Hin. pose proof (sizes_len _ _ _ Hz) as Hnl. assert (Hnn : forall v, v ∈ ns -> 0 <= v) by (intros v Hv'; by eapply sizes_nonneg).
  assert (Ecl : clonePartRange (fd_disc f) b e s = clonePart (fd_disc f) ids).
  { apply (clone_range _ _ _ _ _ (zlen cells)); [|done..]. intros g dpc E E'. rewrite E in Hz. destruct Hz as (dpc' & E'' & Hl & _). congruence. }
  assert (K : exists m' selr, buildSubMeshDataRange (fd_disc f) (fd_mesh f) b e s = Ok (m', selr) /\ stores m' sel /\ um_dim m' = um_dim (fd_mesh f) /\ um_coords m' = um_coords (fd_mesh f) /\
     forall a, Some a ∈ fd_arrs f -> (match selr with Ids l => mySelectByTupleIdSafe a l | Slice b e s => mySelectByTupleIdSafeSlice a b e s end) = mySelectByTupleIdSafe a (blocks ns ids)).
  { pose proof (tupleIds_ok _ _ _ _ ids Hs Hz Hw Hin) as Et.
    assert (G : s <> 1 -> fd_disc f <> P0 -> exists m', (let* ids := Range b e s in let* ids := initialised ids in let* (p, di) := buildSubMeshData (fd_disc f) (fd_mesh f) ids in Ok (p, Ids di)) = Ok (m', Ids (blocks ns ids)) /\ stores m' sel /\ um_dim m' = um_dim (fd_mesh f) /\ um_coords m' = um_coords (fd_mesh f)).
    { intros Hs1 H0. destruct (range_ok b e s Hv) as (l & El & Hl). rewrite (range_unique _ _ _ _ _ Hl Hr) in El. rewrite El. cbn [bind]. rewrite initialised_ok. cbn [bind]. destruct (partOf_ok _ _ _ _ Hs Hd Hp) as (m' & Em & Hs' & _ & Hd' & Hc'). exists m'. split; [|done]. unfold buildSubMeshData. destruct (fd_disc f); [done|done| |]; rewrite Et; cbn [bind]; rewrite Em; done. }
    assert (S1 : forall size, (forall i v, ns @ i = Some v -> size i = Ok v) -> s = 1 -> e = zlen cells -> exists m' bo eo, rangeOfTuples size (zlen cells) b e = Ok (bo, eo) /\ buildPartRange (fd_mesh f) b e s = Ok m' /\ stores m' sel /\ um_dim m' = um_dim (fd_mesh f) /\ um_coords m' = um_coords (fd_mesh f) /\
        forall a, Some a ∈ fd_arrs f -> mySelectByTupleIdSafeSlice a bo eo s = mySelectByTupleIdSafe a (blocks ns ids)).
    { intros size Hsz -> ->. assert (Hb : 0 <= b <= zlen cells).
      { destruct Hv as (_ & H1 & H2). assert (b <= zlen cells) by lia. split; [|done]. destruct (decide (b < zlen cells)); [|pose proof (zlen_nonneg cells); lia]. apply (Hin b). eapply (zlook_elem _ 0). apply Hr. split; [lia|]. split; [lia|]. unfold before. left. lia. }
      destruct (partRange_ok _ _ _ _ _ _ _ Hs Hd Hco Hv Hr Hp) as (m' & Em & Hs' & Hd' & Hc'). exists m', (zsum (take (Z.to_nat b) ns)), (zsum (take (Z.to_nat (zlen cells + 1)) ns)). split; [pose proof (rangeOf_ok size ns b (zlen cells) Hsz ltac:(lia)) as Ero; rewrite Hnl in Ero; exact Ero|]. split; [done|]. split; [done|]. split; [done|]. split; [done|].
      destruct (range_one b (zlen cells - b) ltac:(lia)) as [_ Hr']. replace (b + (zlen cells - b)) with (zlen cells) in Hr' by lia. rewrite (range_unique _ _ _ _ _ Hr Hr') in *. destruct (blocks_seq ns b (zlen cells - b) Hnn ltac:(lia) ltac:(lia) ltac:(lia)) as [-> Hle]. replace (b + (zlen cells - b)) with (zlen cells) in * by lia.
      assert (Ef : take (Z.to_nat (zlen cells + 1)) ns = take (Z.to_nat (zlen cells)) ns) by (rewrite !firstn_all2; [done|unfold zlen in *; lia..]). rewrite Ef. assert (Ef' : take (Z.to_nat (zlen cells)) ns = ns) by (apply firstn_all2; unfold zlen in *; lia). rewrite Ef'. rewrite Ef' in Hle.
      intros a Hain. destruct (Ha a Hain) as (Hal & Hwf & _ & Hnt). destruct (range_one (zsum (take (Z.to_nat b) ns)) (zsum ns - zsum (take (Z.to_nat b) ns)) ltac:(lia)) as [Hv2 Hr2]. replace (zsum (take (Z.to_nat b) ns) + (zsum ns - zsum (take (Z.to_nat b) ns))) with (zsum ns) in * by lia. apply selectSlice_ok; [done|done|done|done|]. intros v Hv'. apply elem_of_seqZ in Hv'. rewrite Hnt. pose proof (zsum_take_nonneg ns b Hnn). lia. }
    destruct (fd_disc f) as [| |g|] eqn:Ed; [|done| |].
    - destruct (partRange_ok _ _ _ _ _ _ _ Hs Hd Hco Hv Hr Hp) as (m' & Em & Hs' & Hd' & Hc'). exists m', (Slice b e s). split; [cbn [buildSubMeshDataRange]; by rewrite Em|]. split; [done|]. split; [done|]. split; [done|]. intros a Hain. cbn in Et. injection Et as Et. rewrite <- Et. destruct (Ha a Hain) as (Hal & Hwf & _ & Hnt). apply selectSlice_ok; [done..|]. rewrite Hnt. cbn [sizes] in Hz. rewrite Hz, ones_sum. done.
    - cbn [buildSubMeshDataRange]. destruct (Z.eqb_spec s 1) as [Es|Es]; cbn [negb].
      + destruct Hcase as [?|[?|He]]; [done..|]. pose proof Hz as (dpc & E & Hl & _). destruct (proj2 (sizes_gauss g cells dpc ns E Hl) Hz) as [H1 H2]. rewrite E. edestruct (S1 (fun i => let* w := rd dpc i in throw_if w =? -1 >>> throw_if negb ((0 <=? w) && (w <? zlen (gd_loc g))) >>> let* l := rd (gd_loc g) w in Ok (getNumberOfGaussPt l))) as (m' & bo & eo & E1 & E2 & ? & ? & ? & Hsel); [intros i v Hiv; by apply gauss_size, H2|done|done|].
        exists m', (Slice bo eo s). rewrite Hl, E1. cbn [bind]. rewrite E2. done.
      + destruct (G Es ltac:(done)) as (m' & E & ? & ? & ?). exists m', (Ids (blocks ns ids)). done.
    - cbn [buildSubMeshDataRange]. destruct (Z.eqb_spec s 1) as [Es|Es]; cbn [negb].
      + destruct Hcase as [?|[?|He]]; [done..|]. rewrite (numCells_ok _ cells Hs). cbn [bind]. destruct (proj2 (sizes_ne (fd_mesh f) cells ns Hs) Hz) as [H1 H2]. destruct (S1 (nodesOfType (fd_mesh f)) H2 Es He) as (m' & bo & eo & E1 & E2 & ? & ? & ? & Hsel).
        exists m', (Slice bo eo s). rewrite E1. cbn [bind]. rewrite E2. done.
      + destruct (G Es ltac:(done)) as (m' & E & ? & ? & ?). exists m', (Ids (blocks ns ids)). done. }
  destruct K as (m' & selr & Em & Hs' & Hd' & Hc' & Hsel).
  destruct (part_core f cells ns ids sel m' (fun a => match selr with Ids l => mySelectByTupleIdSafe a l | Slice b e s => mySelectByTupleIdSafeSlice a b e s end) (clonePart (fd_disc f) ids) Hf Hp Hs' Hsel) as (d' & arrs' & E1 & E2 & H1 & H2 & H3).
  { intros g dpc -> E. cbn [clonePart]. by rewrite E. } { by intros [-> | ->]. }
  exists (FD d' m' arrs'), (pick ns ids). split; [|done]. unfold buildSubPartRange. rewrite Em. cbn [bind]. rewrite Ecl, E1. cbn [bind]. rewrite E2. done.
Qed.
(** Step one and an end before the last cell: the values of one more cell. *)
Lemma range_more {A} (f : field A) cells ns b e n sel : carries f cells ns -> 0 <= um_dim (fd_mesh f) -> is_Some (um_coords (fd_mesh f)) -> fd_disc f <> P0 -> 0 <= b <= e -> ns @ e = Some n -> picked cells (seqZ b (e - b)) sel ->
  exists f' ns', buildSubPartRange f b e 1 = Ok f' /\ stores (fd_mesh f') sel /\ sizes (fd_disc f') sel ns' /\ Forall2 (fun a a' => match a, a' with None, None => True | Some _, Some a' => da_nt a' = zsum ns' + n | _, _ => False end) (fd_arrs f) (fd_arrs f').
Proof.
  intros Hf Hd Hco H0 Hb He Hp. pose proof Hf as (Hs & Hz & Ha). pose proof (picked_range _ _ _ Hp) as Hin. pose proof (sizes_len _ _ _ Hz) as Hnl. assert (Hnn : forall v, v ∈ ns -> 0 <= v) by (intros v Hv'; by eapply sizes_nonneg). apply zlook_Some_lt in He as Heb.
  destruct (range_one b (e - b) ltac:(lia)) as [Hv Hr]. replace (b + (e - b)) with e in * by lia. set (ids := seqZ b (e - b)) in *.
  assert (Ecl : clonePartRange (fd_disc f) b e 1 = clonePart (fd_disc f) ids).
  { apply (clone_range _ _ _ _ _ (zlen cells)); [|done..]. intros g dpc E E'. rewrite E in Hz. destruct Hz as (dpc' & E'' & Hl & _). congruence. }
  destruct (partRange_ok _ _ _ _ _ _ _ Hs Hd Hco Hv Hr Hp) as (m' & Em & Hs' & Hd' & Hc').
  (* the discretization *)
  destruct (part_core (A := A) (FD (fd_disc f) (fd_mesh f) []) cells ns ids sel m' (fun a => mySelectByTupleIdSafe a (blocks ns ids)) (clonePart (fd_disc f) ids)) as (d' & arrs0 & E1 & _ & H1 & _ & _); [|done|done|done| | |].
  { split; [done|]. split; [done|]. intros a Hain. by apply elem_of_nil in Hain. } { intros g dpc E E'. cbn [fd_disc] in E. rewrite E. cbn [clonePart]. by rewrite E'. } { cbn [fd_disc]. by intros [-> | ->]. }
  (* the arrays *)
  set (bo := zsum (take (Z.to_nat b) ns)). set (eo := zsum (take (Z.to_nat (e + 1)) ns)).
  destruct (blocks_seq ns b (e + 1 - b) Hnn ltac:(lia) ltac:(lia) ltac:(lia)) as [Hbl Hle]. replace (b + (e + 1 - b)) with (e + 1) in * by lia. fold bo eo in Hbl, Hle.
  assert (Hr1 : forall i, i ∈ seqZ b (e + 1 - b) -> 0 <= i < zlen ns) by (intros i Hi; apply elem_of_seqZ in Hi; lia).
  destruct (selectAll_ok (fun a => mySelectByTupleIdSafeSlice a bo eo 1) (fd_arrs f) (blocks ns (seqZ b (e + 1 - b))) (zsum ns) Ha) as (arrs' & Ea & Hm); [by apply blocks_range| |].
  { intros a Hain. destruct (Ha a Hain) as (Hal & Hwf & _ & Hnt). destruct (range_one bo (eo - bo) ltac:(lia)) as [Hv2 Hr2]. replace (bo + (eo - bo)) with eo in * by lia. rewrite Hbl. apply selectSlice_ok; [done..|]. intros v Hv'. rewrite Hnt. rewrite <- Hbl in Hv'. by eapply blocks_range. }
  assert (E : buildSubMeshDataRange (fd_disc f) (fd_mesh f) b e 1 = Ok (m', Slice bo eo 1)).
  { destruct (fd_disc f) as [| |g|] eqn:Ed; [done|done| |]; cbn [buildSubMeshDataRange]; change (negb (1 =? 1)) with false; cbn iota.
    - pose proof Hz as (dpc & E & Hl & _). destruct (proj2 (sizes_gauss g cells dpc ns E Hl) Hz) as [H2 H3]. rewrite E. rewrite <- H2. rewrite (rangeOf_ok _ ns b e); [|intros i v Hiv; by apply gauss_size, H3|lia]. cbn [bind]. rewrite Em. done.
    - rewrite (numCells_ok _ cells Hs). cbn [bind]. destruct (proj2 (sizes_ne (fd_mesh f) cells ns Hs) Hz) as [H2 H3]. rewrite <- Hnl. rewrite (rangeOf_ok _ ns b e H3) by lia. cbn [bind]. rewrite Em. done. }
  exists (FD d' m' arrs'), (pick ns ids). split; [unfold buildSubPartRange; rewrite E; cbn [bind]; rewrite Ecl, E1; cbn [bind]; rewrite Ea; done|]. split; [done|]. split; [apply H1|]. cbn [fd_arrs].
  eapply Forall2_impl; [exact Hm|]. intros [a|] [a'|] Hmm; try done. destruct Hmm as (_ & (_ & _ & _ & Hnt) & _). rewrite Hnt, blocks_len by done. replace (e + 1 - b) with (e - b + 1) by lia. rewrite seqZ_app_r by lia. unfold pick. rewrite fmap_app, zsum_app. fold ids. f_equal. change ((fun i => default 0 (ns @ i)) <$> [b + (e - b)]) with [default 0 (ns @ (b + (e - b)))]. replace (b + (e - b)) with e by lia. rewrite He. cbn. lia.
Qed.
Lemma range_bad {A} (f : field A) cells ns b e s : carries f cells ns -> 0 <= um_dim (fd_mesh f) -> is_Some (um_coords (fd_mesh f)) -> (fd_disc f = GaussNE -> forall c, c ∈ cells -> whole c) ->
  (~ valid_range b e s \/ exists ids v, is_range_list b e s ids /\ v ∈ ids /\ ~ 0 <= v < zlen cells) -> buildSubPartRange f b e s = Throw.
Proof.
  intros (Hs & Hz & Ha) Hd Hco Hw H. destruct (partRange_throw _ _ _ _ _ Hs Hd Hco H) as [_ Em]. pose proof (sizes_len _ _ _ Hz) as Hnl. unfold buildSubPartRange. assert (E : buildSubMeshDataRange (fd_disc f) (fd_mesh f) b e s = Throw); [|by rewrite E].
  assert (G : fd_disc f <> P0 -> (let* ids := Range b e s in let* ids := initialised ids in let* (p, di) := buildSubMeshData (fd_disc f) (fd_mesh f) ids in Ok (p, Ids di)) = Throw).
  { intros H0. destruct H as [H|(ids & v & H1 & H2 & H3)]; [by rewrite (proj2 (range_throw b e s) H)|]. destruct (decide (valid_range b e s)) as [Hv|Hv]; [|by rewrite (proj2 (range_throw b e s) Hv)]. destruct (range_ok b e s Hv) as (l & El & Hl). rewrite (range_unique _ _ _ _ _ Hl H1) in El. rewrite El. cbn [bind]. rewrite initialised_ok. cbn [bind].
    unfold buildSubMeshData. destruct (fd_disc f) eqn:Ed; [done|done| |]; rewrite (tupleIds_bad _ _ _ _ _ _ Hs Hz H0 Hw H2 H3); done. }
  destruct (fd_disc f) as [| |g|] eqn:Ed; [|done| |]; cbn [buildSubMeshDataRange].
  - by rewrite Em.
  - destruct (negb (s =? 1)); [by apply G|]. pose proof Hz as (dpc & E & Hl & _). destruct (proj2 (sizes_gauss g cells dpc ns E Hl) Hz) as [H2 H3]. rewrite E. rewrite <- H2. edestruct rangeOf_total as (bo & eo & ->); [intros i v Hiv; by apply gauss_size, H3|]. cbn [bind]. by rewrite Em.
  - destruct (negb (s =? 1)); [by apply G|]. rewrite (numCells_ok _ cells Hs). cbn [bind]. destruct (proj2 (sizes_ne (fd_mesh f) cells ns Hs) Hz) as [H2 H3]. rewrite <- Hnl. destruct (rangeOf_total _ ns b e H3) as (bo & eo & ->). cbn [bind]. by rewrite Em.
Qed.
