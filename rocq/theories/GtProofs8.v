From Coq Require Import QArith ZifyBool ZifyNat.
From stdpp Require Import gmap.
From Verif Require Import CellModel Base DataArray ArrLib FillLib SlicesSpec SlicesModel SlicesProofs SearchSpec SearchModel SearchProofs IndexSpec IndexModel IndexProofs IndexProofs2 IndexProofs4 IndexProofs3 SkySpec SkyModel SkyProofs SkyProofs4 CellTable CellProofs5 DsProofs6 GlModel GlProofs2 UmModel UmSpec UmProofs UmProofs2 UmProofs3 UmProofs4 UmProofs8 UmProofs9 UmProofs10 MgSpec GtModel GtSpec GtProofs GtProofs2 GtProofs4 GtProofs5 GtProofs6.
Local Open Scope Z_scope.

(** * Parts *)
Lemma picked_in cells ids sel c : picked cells ids sel -> c ∈ sel -> c ∈ cells.
Proof. intros H Hc. apply elem_of_list_lookup in Hc as [i Hi]. destruct (Forall2_lookup_r _ _ _ _ _ H Hi) as (w & _ & Hw). by eapply zlook_elem. Qed.
Lemma picked_app cells ids sel ids' sel' : picked cells ids sel -> picked cells ids' sel' -> picked cells (ids ++ ids') (sel ++ sel').
Proof. apply Forall2_app. Qed.
Section STATIC.
Context (m : sgt) (cells : list cell) (H : s_holds m cells).
Notation k := (cm_nbpts (sg_cm m)).
Definition part_st (M : Z) (pre : list cell) : list (option Z) := (Some <$> concat (snd <$> pre)) ++ malloc Z (M * k - zlen (concat (snd <$> pre))).
Lemma s_sub sel : (forall c, c ∈ sel -> c ∈ cells) -> s_holds (SG (sg_cm m) (sg_coords m) (Some (concat (snd <$> sel)))) sel.
Proof using H. intros Hs. destruct H as (H1 & H2 & H3 & _). split; [done|]. split; [done|]. split; [|done]. cbn. intros c Hc. apply H3. by apply Hs. Qed.
Lemma part_start M : malloc Z (M * k) = part_st M [].
Proof using Type. unfold part_st. change (concat _) with (@nil Z). change (zlen (@nil Z)) with 0. rewrite Z.sub_0_r. done. Qed.
Lemma part_step M w c pre : (forall d, d ∈ pre -> d ∈ cells) -> cells @ w = Some c -> zlen pre < M -> copyc (concat (snd <$> cells)) (w * k) ((w + 1) * k) (part_st M pre) (zlen pre * k) = Ok (part_st M (pre ++ [c])).
Proof using H.
  intros Hp Hc Hl. destruct (concat_at cells k w c (s_len m cells H) Hc) as (B1 & B2 & B3 & B4). pose proof (s_k m cells H). assert (Hpl : zlen (concat (snd <$> pre)) = zlen pre * k) by (apply concat_same; intros d Hd; apply (s_len m cells H), Hp, Hd).
  unfold part_st. rewrite copyc_fill; [|lia|lia|lia|rewrite Hpl; nia|lia]. rewrite <- B4, concat_snd, zlen_app. f_equal. f_equal. f_equal. assert (zlen c.2 = k) by (apply (s_len m cells H); by eapply zlook_elem). lia.
Qed.
Lemma part_end M sel : zlen sel = M -> (forall d, d ∈ sel -> d ∈ cells) -> part_st M sel = Some <$> concat (snd <$> sel).
Proof using H.
  intros Hl Hp. unfold part_st. rewrite (concat_same sel k) by (intros d Hd; apply (s_len m cells H), Hp, Hd). rewrite Hl, Z.sub_diag. change (malloc Z 0) with (@nil (option Z)). by rewrite app_nil_r.
Qed.
Lemma s_part ids sel : picked cells ids sel -> exists m', S_buildPartOfMySelfKeepCoords m ids = Ok m' /\ s_holds m' sel /\ sg_cm m' = sg_cm m /\ sg_coords m' = sg_coords m.
Proof using H.
  intros Hs. pose proof (picked_len _ _ _ Hs) as Hl. unfold S_buildPartOfMySelfKeepCoords, S_unchecked. rewrite (s_num m cells H), (s_conn m cells H), (s_perCell m cells H). cbn [bind]. pose proof (s_k m cells H). pose proof (zlen_nonneg ids). rewrite alloc1 by nia. cbn [bind]. rewrite part_start.
  rewrite (forZ_blocks _ (part_st (zlen ids)) (zlen ids) sel Hl).
  - cbn [bind]. rewrite part_end by (done || intros d; by apply (picked_in cells ids)). rewrite initialised_ok. cbn [bind]. eexists. split; [done|]. split; [apply s_sub; intros d; by apply (picked_in cells ids)|done].
  - intros pre c post E. assert (Hpre : forall d, d ∈ pre -> d ∈ cells). { intros d Hd. apply (picked_in cells ids sel d Hs). rewrite E. apply elem_of_app. by left. } rewrite E in Hs. destruct (picked_at _ _ _ _ _ Hs) as (w & Hw & Hc). rewrite (rd_ok _ _ _ Hw). cbn [bind]. apply zlook_Some_lt in Hc as ?. apply zlook_Some_lt in Hw as ?. replace (_ && _) with true by lia. apply part_step; [done|done|lia].
Qed.
Lemma s_part_throw ids : S_buildPartOfMySelfKeepCoords m ids = Throw <-> exists v, v ∈ ids /\ ~ 0 <= v < zlen cells.
Proof using H.
  split.
  - intros E. destruct (decide (Forall (fun v => 0 <= v < zlen cells) ids)) as [Hf|Hf].
    + destruct (picked_ex cells ids) as [sel Hsel]; [by apply Forall_forall|]. destruct (s_part ids sel Hsel) as (m' & E' & _). congruence.
    + apply not_Forall_Exists in Hf; [|apply _]. apply Exists_exists in Hf as (v & Hv & Hn). exists v. done.
  - intros Hb. destruct (first_bad ids _ Hb) as (pre & v & post & E & Hv & Hp). destruct (picked_ex cells pre Hp) as [sel Hsel]. pose proof (picked_len _ _ _ Hsel) as Hl.
    unfold S_buildPartOfMySelfKeepCoords, S_unchecked. rewrite (s_num m cells H), (s_conn m cells H), (s_perCell m cells H). cbn [bind]. pose proof (s_k m cells H). pose proof (zlen_nonneg ids). rewrite alloc1 by nia. cbn [bind]. rewrite part_start.
    assert (zlen ids = zlen pre + 1 + zlen post) as Hz by (rewrite E, zlen_app, zlen_cons; lia). pose proof (zlen_nonneg post). rewrite (forZ_stop _ (part_st (zlen ids)) (zlen ids) sel); [done|lia| |].
    + intros p c q Es. assert (Hpre : forall d, d ∈ p -> d ∈ cells). { intros d Hd. apply (picked_in cells pre sel d Hsel). rewrite Es. apply elem_of_app. by left. } rewrite Es in Hsel. destruct (picked_at _ _ _ _ _ Hsel) as (w & Hw & Hc). apply zlook_Some_lt in Hw as ?. assert (ids @ zlen p = Some w) as Hw' by (rewrite E, zlook_app_l by lia; done). rewrite (rd_ok _ _ _ Hw'). cbn [bind]. apply zlook_Some_lt in Hc as ?. replace (_ && _) with true by lia. apply part_step; [done|done|lia].
    + assert (ids @ zlen sel = Some v) as Hw by (rewrite Hl, E; apply split_at). rewrite (rd_ok _ _ _ Hw). cbn [bind]. replace (_ && _) with false by lia. done.
Qed.
Lemma s_slice b e s ids sel : valid_range b e s -> is_range_list b e s ids -> picked cells ids sel ->
  exists m', S_buildPartOfMySelfKeepCoordsSlice m b e s = Ok m' /\ s_holds m' sel /\ sg_cm m' = sg_cm m /\ sg_coords m' = sg_coords m.
Proof using H.
  intros Hv Hr Hs. pose proof (picked_len _ _ _ Hs) as Hl. destruct (range_rangeL b e s Hv) as (n & Hn & Hb & Ec & _). assert (ids = rangeL b s n) as -> by (eapply is_range_list_unique; [exact Hr|by apply rangeL_is_range]). rewrite rangeL_len in Hl by done.
  unfold S_buildPartOfMySelfKeepCoordsSlice, S_unchecked. rewrite (s_num m cells H), (s_conn m cells H), (s_perCell m cells H), Ec. cbn [bind]. pose proof (s_k m cells H). rewrite alloc1 by nia. cbn [bind]. rewrite part_start.
  set (st := fun pre : list cell => (part_st n pre, b + zlen pre * s)). replace (part_st n [], b) with (st []) by (unfold st; change (zlen (@nil cell)) with 0; f_equal; lia).
  rewrite (forZ_blocks _ st n sel Hl).
  - unfold st. cbn [bind]. rewrite part_end by (done || intros d; by eapply (picked_in cells)). rewrite initialised_ok. cbn [bind]. eexists. split; [done|]. split; [apply s_sub; intros d; by eapply (picked_in cells)|done].
  - intros pre c post E. assert (Hpre : forall d, d ∈ pre -> d ∈ cells). { intros d Hd. apply (picked_in cells (rangeL b s n) sel d Hs). rewrite E. apply elem_of_app. by left. } rewrite E in Hs. destruct (picked_at _ _ _ _ _ Hs) as (w & Hw & Hc). apply zlook_Some_lt in Hw as Hw1. rewrite rangeL_len in Hw1 by done. rewrite rangeL_look in Hw by done. injection Hw as <-.
    apply zlook_Some_lt in Hc as ?. unfold st at 1. cbn beta iota. replace (_ && _) with true by lia. rewrite (part_step n _ c) by (done || lia). cbn [bind]. unfold st. rewrite zlen_app. change (zlen [c]) with 1. do 2 f_equal. lia.
Qed.
Lemma s_slice_throw b e s : (~ valid_range b e s \/ exists ids v, is_range_list b e s ids /\ v ∈ ids /\ ~ 0 <= v < zlen cells) -> S_buildPartOfMySelfKeepCoordsSlice m b e s = Throw.
Proof using H.
  intros Hb. unfold S_buildPartOfMySelfKeepCoordsSlice, S_unchecked. rewrite (s_num m cells H). cbn [bind]. destruct (valid_range_dec b e s) as [Hv|Hv].
  2: { rewrite (proj2 (count_throw b e s) Hv). done. }
  destruct Hb as [Hb|(ids & v & Hr & Hin & Hbad)]; [done|]. destruct (range_rangeL b e s Hv) as (n & Hn & Hb & Ec & _). assert (ids = rangeL b s n) as -> by (eapply is_range_list_unique; [exact Hr|by apply rangeL_is_range]).
  destruct (first_bad (rangeL b s n) (zlen cells)) as (pre & w & post & E & Hw & Hp); [eauto|]. destruct (picked_ex cells pre Hp) as [sel Hsel]. pose proof (picked_len _ _ _ Hsel) as Hl.
  rewrite Ec, (s_conn m cells H), (s_perCell m cells H). cbn [bind]. pose proof (s_k m cells H). rewrite alloc1 by nia. cbn [bind]. rewrite part_start.
  set (st := fun pre : list cell => (part_st n pre, b + zlen pre * s)). replace (part_st n [], b) with (st []) by (unfold st; change (zlen (@nil cell)) with 0; f_equal; lia).
  assert (n = zlen pre + 1 + zlen post) as Hz by (rewrite <- (rangeL_len b s n Hn), E, zlen_app, zlen_cons; lia). pose proof (zlen_nonneg post). pose proof (zlen_nonneg pre). rewrite (forZ_stop _ st n sel); [done|lia| |].
  - intros p c q Es. assert (Hpre : forall d, d ∈ p -> d ∈ cells). { intros d Hd. apply (picked_in cells pre sel d Hsel). rewrite Es. apply elem_of_app. by left. } rewrite Es in Hsel. destruct (picked_at _ _ _ _ _ Hsel) as (x & Hx & Hc). apply zlook_Some_lt in Hx as ?. assert (rangeL b s n @ zlen p = Some x) as Hx' by (rewrite E, zlook_app_l by lia; done). rewrite rangeL_look in Hx' by lia. injection Hx' as <-.
    apply zlook_Some_lt in Hc as ?. unfold st at 1. cbn beta iota. replace (_ && _) with true by lia. rewrite (part_step n _ c) by (done || lia). cbn [bind]. unfold st. rewrite zlen_app. change (zlen [c]) with 1. do 2 f_equal. lia.
  - assert (rangeL b s n @ zlen sel = Some w) as Hx by (rewrite Hl, E; apply split_at). rewrite rangeL_look in Hx by lia. injection Hx as <-. unfold st at 1. cbn beta iota. replace (_ && _) with false by lia. done.
Qed.
(** * Insertion *)
Lemma s_insert nodes : (zlen nodes = k -> exists m', S_insertNextCell m nodes = Ok m' /\ s_holds m' (cells ++ [(cm_type (sg_cm m), nodes)]) /\ sg_cm m' = sg_cm m /\ sg_coords m' = sg_coords m) /\ (zlen nodes <> k -> S_insertNextCell m nodes = Throw).
Proof using H.
  unfold S_insertNextCell. rewrite (s_perCell m cells H), (s_conn m cells H). cbn [bind]. split; intros Hl.
  - replace (zlen nodes =? k) with true by lia. eexists. split; [done|]. split; [|done]. destruct H as (H1 & H2 & H3 & _). split; [done|]. split; [done|]. cbn. split; [intros c [Hc| ->%elem_of_list_singleton]%elem_of_app; [by apply H3|done]|]. f_equal. rewrite concat_snd. done.
  - replace (zlen nodes =? k) with false by lia. done.
Qed.
End STATIC.
Lemma s_allocate m n : GetCellModel (cm_type (sg_cm m)) = Ok (sg_cm m) -> cm_dyn (sg_cm m) = false -> (0 <= n -> exists m', S_allocateCells m n = Ok m' /\ s_holds m' [] /\ sg_cm m' = sg_cm m /\ sg_coords m' = sg_coords m) /\ (n < 0 -> S_allocateCells m n = Throw).
Proof.
  intros H1 H2. unfold S_allocateCells, S_getNumberOfNodesPerCell, ifthrow. rewrite H2. cbn [bind]. split; intros Hn.
  - replace (n <? 0) with false by lia. eexists. split; [done|]. split; [|done]. split; [done|]. split; [done|]. split; [|done]. intros c Hc. inversion Hc.
  - replace (n <? 0) with true by lia. done.
Qed.

(** * Dynamic types *)
Section DYNAMIC.
Context (m : dgt) (cells : list cell) (H : d_holds m cells).
Lemma d_sub sel conn connI : (forall c, c ∈ sel -> c ∈ cells) -> skyline (snd <$> sel) conn connI -> d_packed (DG (dg_cm m) (dg_coords m) (Some conn) (Some connI)) sel.
Proof using H. intros Hs Hk. destruct H as (H1 & H2 & H3 & _). split; [done|]. split; [done|]. split; [intros c Hc; by apply H3, Hs|]. exists conn, connI. done. Qed.
Lemma d_light : dg_coords m <> None -> exists d conn connI, dg_coords m = Some d /\ dg_conn m = Some conn /\ dg_connI m = Some connI /\ zlen connI = zlen cells + 1 /\ (forall i c, cells @ i = Some c -> pack conn connI i c.2) /\
  forall A (k : da Q -> list Z -> list Z -> res A), D_checkConsistencyLight m k = k d conn connI.
Proof using H.
  intros Hc. destruct (dg_coords m) as [d|] eqn:Ed; [|done]. destruct (d_data m cells H) as (conn & connI & E1 & E2 & Hl & Hp & _ & Hch & _). exists d, conn, connI. split; [done|]. split; [done|]. split; [done|]. split; [done|]. split; [done|]. intros A k. unfold D_checkConsistencyLight. rewrite Ed. apply Hch.
Qed.
Lemma picked_packs conn connI ids sel : (forall i c, cells @ i = Some c -> pack conn connI i c.2) -> picked cells ids sel -> Forall2 (pack conn connI) ids (snd <$> sel).
Proof using Type. intros Hp. induction 1 as [|i c ids sel Hc Hs IH]; [constructor|]. rewrite fmap_cons. constructor; [by apply Hp|done]. Qed.
Lemma d_part ids sel : dg_coords m <> None -> picked cells ids sel -> exists m', D_buildPartOfMySelfKeepCoords m ids = Ok m' /\ d_packed m' sel /\ dg_cm m' = dg_cm m /\ dg_coords m' = dg_coords m.
Proof using H.
  intros Hc Hs. destruct (d_light Hc) as (d & conn & connI & Ed & E1 & E2 & Hl & Hp & Hch). unfold D_buildPartOfMySelfKeepCoords. rewrite Hch. pose proof (zlen_nonneg cells).
  destruct (extract_ok (vec conn) (vec connI) eq_refl eq_refl eq_refl eq_refl ltac:(rewrite da_nt_vec; lia) ids (snd <$> sel)) as (k & r & -> & Hk); [by apply picked_packs|]. cbn [bind]. rewrite !initialised_ok. cbn [bind]. eexists. split; [done|]. split; [|done]. apply d_sub; [intros c; by apply (picked_in cells ids)|done].
Qed.
Lemma d_part_throw ids : dg_coords m <> None -> D_buildPartOfMySelfKeepCoords m ids = Throw <-> exists v, v ∈ ids /\ ~ 0 <= v < zlen cells.
Proof using H.
  intros Hc. split.
  - intros E. destruct (decide (Forall (fun v => 0 <= v < zlen cells) ids)) as [Hf|Hf].
    + destruct (picked_ex cells ids) as [sel Hsel]; [by apply Forall_forall|]. destruct (d_part ids sel Hc Hsel) as (m' & E' & _). congruence.
    + apply not_Forall_Exists in Hf; [|apply _]. apply Exists_exists in Hf as (v & Hv & Hn). exists v. done.
  - intros (v & Hv & Hb). destruct (d_light Hc) as (d & conn & connI & Ed & E1 & E2 & Hl & Hp & Hch). unfold D_buildPartOfMySelfKeepCoords. rewrite Hch. pose proof (zlen_nonneg cells).
    rewrite (proj2 (extract_throw (vec conn) (vec connI) eq_refl eq_refl eq_refl eq_refl ltac:(rewrite da_nt_vec; lia) ids)); [done|]. exists v. split; [done|]. intros p (a & b & Ha & Hb' & _). apply zlook_Some_lt in Ha. apply zlook_Some_lt in Hb'. cbn in Ha, Hb'. lia.
Qed.
Lemma d_slice b e s ids : dg_coords m <> None -> valid_range b e s -> is_range_list b e s ids -> D_buildPartOfMySelfKeepCoordsSlice m b e s = D_buildPartOfMySelfKeepCoords m ids.
Proof using H.
  intros Hc Hv Hr. destruct (d_light Hc) as (d & conn & connI & Ed & E1 & E2 & Hl & Hp & Hch). unfold D_buildPartOfMySelfKeepCoordsSlice, D_buildPartOfMySelfKeepCoords. rewrite !Hch. pose proof (zlen_nonneg cells).
  rewrite (extractSlice_same (vec conn) (vec connI) eq_refl eq_refl eq_refl eq_refl ltac:(rewrite da_nt_vec; lia) b e s ids Hv Hr). done.
Qed.
End DYNAMIC.
Lemma d_insert m cells nodes : d_packed m cells -> exists m', D_insertNextCell m nodes = Ok m' /\ d_packed m' (cells ++ [(cm_type (dg_cm m), nodes)]) /\ dg_cm m' = dg_cm m /\ dg_coords m' = dg_coords m.
Proof.
  intros (H1 & H2 & H3 & conn & connI & E1 & E2 & (-> & Hps)). unfold D_insertNextCell. rewrite E1, E2. pose proof (prefix_sums_eq _ _ Hps) as Eq. pose proof (psums_len (zlen <$> (snd <$> cells))) as Hl. pose proof (psums_end (zlen <$> (snd <$> cells))) as He. rewrite <- Eq in Hl, He. rewrite !zlen_fmap in Hl, He. pose proof (zlen_nonneg cells).
  assert (Hl2 : zlen connI = zlen cells + 1) by exact Hl. unfold ifthrow. replace (zlen connI =? 0) with false by lia. assert (Hr : connI @ (zlen connI - 1) = Some (zlen (concat (snd <$> cells)))). { replace (zlen connI - 1) with (zlen cells) by lia. rewrite zlen_concat. exact He. }
  rewrite (rd_ok _ _ _ Hr). cbn [bind]. rewrite Z.eqb_refl. eexists. split; [done|]. split; [|done]. split; [done|]. split; [done|]. cbn [dg_cm]. split; [intros c [Hc| ->%elem_of_list_singleton]%elem_of_app; [by apply H3|done]|]. eexists _, _. split; [done|]. split; [done|]. cbn. split.
  - rewrite concat_snd. done.
  - rewrite Eq. pose proof (psums_ok (zlen <$> (snd <$> (cells ++ [(cm_type (dg_cm m), nodes)])))) as Hx. rewrite psums_snd in Hx. exact Hx.
Qed.
Lemma d_last m cells conn connI : d_holds m cells -> dg_conn m = Some conn -> dg_connI m = Some connI -> exists f, connI @ 0 = Some f /\ connI @ (zlen connI - 1) = Some (f + zlen (concat (snd <$> cells))) /\ 0 <= f /\ f + zlen (concat (snd <$> cells)) <= zlen conn.
Proof.
  intros H E1 E2. destruct (d_data m cells H) as (conn' & connI' & E1' & E2' & Hl & Hp & _). assert (conn' = conn) as -> by congruence. assert (connI' = connI) as -> by congruence. destruct H as (_ & _ & _ & c' & ci' & f & F1 & F2 & _ & _ & F0 & Ff & _). assert (c' = conn) as -> by congruence. assert (ci' = connI) as -> by congruence.
  pose proof (d_offset m cells conn connI Hl Hp f F0 cells [] ltac:(by rewrite app_nil_r)) as Ho. exists f. split; [done|]. replace (zlen connI - 1) with (zlen cells) by lia. split; [done|]. split; [lia|].
  destruct cells as [|c r _] using rev_ind; [change (concat _) with (@nil Z); change (zlen (@nil Z)) with 0; lia|]. assert (Hc : (r ++ [c]) @ zlen r = Some c) by apply split_at. destruct (Hp _ _ Hc) as (a & b & _ & Eb & _ & _ & Hb & _). rewrite zlen_app in Ho. change (zlen [c]) with 1 in Ho. assert (b = f + zlen (concat (snd <$> r ++ [c]))) by congruence. lia.
Qed.
Lemma d_insert_throw m cells nodes conn : d_holds m cells -> dg_conn m = Some conn -> (exists connI, dg_connI m = Some connI /\ connI @ (zlen connI - 1) <> Some (zlen conn)) -> D_insertNextCell m nodes = Throw.
Proof.
  intros H E1 (connI & E2 & Hn). destruct (d_last m cells conn connI H E1 E2) as (f & _ & Hl & _). unfold D_insertNextCell. rewrite E1, E2. apply zlook_Some_lt in Hl as ?. unfold ifthrow. replace (zlen connI =? 0) with false by lia. rewrite (rd_ok _ _ _ Hl). cbn [bind]. destruct (Z.eqb_spec (f + zlen (concat (snd <$> cells))) (zlen conn)); [congruence|done].
Qed.
Lemma d_allocate m n : GetCellModel (cm_type (dg_cm m)) = Ok (dg_cm m) -> cm_dyn (dg_cm m) = true -> (0 <= n -> exists m', D_allocateCells m n = Ok m' /\ d_packed m' [] /\ dg_cm m' = dg_cm m /\ dg_coords m' = dg_coords m) /\ (n < 0 -> D_allocateCells m n = Throw).
Proof.
  intros H1 H2. unfold D_allocateCells, ifthrow. split; intros Hn.
  - replace (n <? 0) with false by lia. eexists. split; [done|]. split; [|done]. split; [done|]. split; [done|]. split; [intros c Hc; inversion Hc|]. exists [], [0]. split; [done|]. split; [done|]. apply (skyline_psums (@nil (list Z))).
  - replace (n <? 0) with true by lia. done.
Qed.
(** * Packing *)
Lemma d_cut m cells conn connI f : d_holds m cells -> dg_conn m = Some conn -> dg_connI m = Some connI -> connI @ 0 = Some f ->
  skyline (snd <$> cells) (take (Z.to_nat (zlen (concat (snd <$> cells)))) (drop (Z.to_nat f) conn)) ((fun v => 1 * v + - f) <$> connI).
Proof.
  intros H E1 E2 Hf. destruct (d_data m cells H) as (conn' & connI' & E1' & E2' & Hl & Hp & _). assert (conn' = conn) as -> by congruence. assert (connI' = connI) as -> by congruence. pose proof (d_offset m cells conn connI Hl Hp f Hf) as Ho.
  destruct (d_last m cells conn connI H E1 E2) as (f' & Hf' & Hlast & Hf0 & Hle). assert (f' = f) as -> by congruence. split.
  - assert (G : forall pre post, cells = pre ++ post -> take (Z.to_nat (zlen (concat (snd <$> pre)))) (drop (Z.to_nat f) conn) = concat (snd <$> pre)); [|apply (G cells []); by rewrite app_nil_r].
    induction pre as [|c pre IH] using rev_ind; intros post E; [done|]. rewrite <- app_assoc in E. pose proof (IH _ E) as IH'. assert (Hc : cells @ zlen pre = Some c) by (rewrite E; apply split_at). destruct (Hp _ _ Hc) as (a & b & Ea & Eb & B1 & B2 & B3 & B4). rewrite (Ho _ _ E) in Ea. injection Ea as <-.
    rewrite concat_snd, zlen_app. pose proof (zlen_nonneg (concat (snd <$> pre))). pose proof (zlen_nonneg c.2). rewrite Z2Nat.inj_add by lia. rewrite <- take_take_drop, IH'. f_equal.
    rewrite drop_drop. rewrite B4 at 2. unfold sub. pose proof (f_equal zlen B4) as L. destruct (sub_split conn (f + zlen (concat (snd <$> pre))) b) as (_ & _ & _ & _ & Q); [lia|lia|]. f_equal; [unfold zlen in *; lia|]. f_equal. unfold zlen in *. lia.
  - split; [rewrite !zlen_fmap; done|]. intros i Hi. rewrite !zlen_fmap in Hi. rewrite zlook_fmap. pose proof (Ho (take (Z.to_nat i) cells) (drop (Z.to_nat i) cells) ltac:(by rewrite take_drop)) as Hx. assert (Hi2 : 0 <= i <= zlen cells) by exact Hi. assert (zlen (take (Z.to_nat i) cells) = i) as Ei by (rewrite zlen_take; lia). rewrite Ei in Hx. rewrite Hx. transitivity (Some (zlen (concat (snd <$> take (Z.to_nat i) cells)))); [cbn [fmap option_fmap option_map]; f_equal; lia|]. rewrite <- !fmap_take, <- zlen_concat. done.
Qed.
Lemma d_packed_iff m cells conn connI f : d_holds m cells -> dg_conn m = Some conn -> dg_connI m = Some connI -> connI @ 0 = Some f -> d_packed m cells <-> f = 0 /\ zlen (concat (snd <$> cells)) = zlen conn.
Proof.
  intros H E1 E2 Hf. split.
  - intros (_ & _ & _ & conn' & connI' & E1' & E2' & (-> & Hps)). assert (connI' = connI) as -> by congruence. rewrite E1 in E1'. injection E1' as ->. split; [|done]. destruct Hps as (_ & Hps). rewrite Hps in Hf by (pose proof (zlen_nonneg (zlen <$> (snd <$> cells))); lia). by injection Hf as <-.
  - intros (-> & Hz). pose proof (d_cut m cells conn connI 0 H E1 E2 Hf) as Hc. rewrite Hz in Hc. change (Z.to_nat 0) with 0%nat in Hc. rewrite drop_0 in Hc. rewrite firstn_all2 in Hc by (unfold zlen; lia). assert ((fun v => 1 * v + - 0) <$> connI = connI) as Ei. { clear. induction connI as [|x l IH]; [done|]. rewrite fmap_cons, IH. f_equal. lia. } rewrite Ei in Hc. destruct H as (H1 & H2 & H3 & _). split; [done|]. split; [done|]. split; [done|]. eauto.
Qed.
Lemma d_isPacked m cells : d_holds m cells -> dg_coords m <> None -> exists b, D_isPacked m = Ok b /\ (b = true <-> d_packed m cells).
Proof.
  intros H Hc. destruct (d_light m cells H Hc) as (d & conn & connI & Ed & E1 & E2 & Hl & Hp & Hch). destruct (d_last m cells conn connI H E1 E2) as (f & Hf & Hlast & Hf0 & Hle). unfold D_isPacked. rewrite Hch, (rd_ok _ _ _ Hf), (rd_ok _ _ _ Hlast). cbn [bind]. eexists. split; [done|]. rewrite (d_packed_iff m cells conn connI f H E1 E2 Hf). lia.
Qed.
Lemma d_pack m cells : d_holds m cells -> dg_coords m <> None -> exists m' b, D_copyWithNodalConnectivityPacked m = Ok (m', b) /\ d_packed m' cells /\ dg_coords m' = dg_coords m /\ dg_cm m' = dg_cm m /\ (b = true <-> d_packed m cells) /\ (b = true -> m' = m).
Proof.
  intros H Hc. destruct (d_light m cells H Hc) as (d & conn & connI & Ed & E1 & E2 & Hl & Hp & Hch). destruct (d_last m cells conn connI H E1 E2) as (f & Hf & Hlast & Hf0 & Hle). destruct (d_isPacked m cells H Hc) as (b & Eb & Hb). unfold D_copyWithNodalConnectivityPacked, D_retrievePackedNodalConnectivity, D_unchecked. rewrite Eb, E1, E2. cbn [bind].
  destruct b.
  - cbn [bind]. eexists _, _. split; [done|]. assert (Em : DG (dg_cm m) (dg_coords m) (Some conn) (Some connI) = m) by (destruct m; cbn in *; congruence). rewrite Em. split; [by apply Hb|]. done.
  - rewrite (rd_ok _ _ _ Hf), (rd_ok _ _ _ Hlast). cbn [bind]. unfold ifthrow. pose proof (zlen_nonneg (concat (snd <$> cells))). replace (_ || _ || _) with false by lia. cbn [bind]. eexists _, _. split; [done|]. split; [|done]. apply (d_sub m cells H); [done|]. replace (f + zlen (concat (snd <$> cells)) - f) with (zlen (concat (snd <$> cells))) by lia. by apply (d_cut m cells).
Qed.
