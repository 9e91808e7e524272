From Coq Require Import QArith ZifyBool ZifyNat.
From Verif Require Import Base DataArray ArrLib FillLib StdModel StdProofs IndexSpec IndexProofs2 IndexProofs3 IndexProofs4 SkyProofs RenumModel RenumSpec RenumProofs RenumProofs2 PartSpec PartModel PartProofs4 CellTable UmModel UmSpec UmProofs UmProofs2 UmProofs8 UmProofs10 UcModel UcSpec UcProofs UcProofs2 UcProofs3.
Local Open Scope Z_scope.

Lemma conv_ok p k (cells : list cell) gs c cI : groups_of p k cells gs -> skyline gs c cI ->
  exists r K, ConvertIndexArrayToO2N (zlen cells) c cI = Ok (Some <$> r, K) /\ 0 <= K /\ quotient p k cells r K.
Proof.
  intros (G1 & G2 & G3 & G4 & G5) Hsky. pose proof (zlen_nonneg cells) as Hn.
  destruct (o2n_conv_ok gs (zlen cells) Hn G3) with (arr := c) (arrI := cI) as (r & K & E & Hl & Hs & Hv & Ho).
  - intros g Hg. destruct (G4 g Hg) as [Hs H2]. destruct g as [|h g]; [rewrite zlen_nil in H2; lia|]. exists h. split; [done|]. split; [apply (G2 (h :: g)); [done|left]|]. intros x [->|Hx]%elem_of_cons; [lia|]. inversion Hs as [|? ? _ Hf]; subst. rewrite Forall_forall in Hf. apply Hf in Hx. lia.
  - done.
  - intros x Hx. apply elem_concat' in Hx as (g & Hg & Hx). by eapply G2.
  - exists r, K. split; [done|].
    assert (HK0 : 0 <= K).
    { destruct r as [|x r']; [|assert (x ∈ x :: r') as Hx by left; apply Hv in Hx; lia]. rewrite zlen_nil in Hl. revert E. rewrite <- Hl. unfold ConvertIndexArrayToO2N. destruct (alloc Z 0 1); cbn [bind]; try done.
      destruct (forZ 0 (zlen cI - 1) _ _); cbn [bind]; try done. rewrite forZ_empty by lia. cbn [bind]. intros [= _ <-]. done. }
    split; [done|]. split; [done|]. split; [|done]. intros i j d e a b Hi Hj Ha Hb. rewrite (Hs i j a b Ha Hb). destruct (decide (i = j)) as [->|Hne]; [tauto|]. rewrite (G1 i j d e Hne Hi Hj). tauto.
Qed.
Lemma o2n_inverse r K : 0 <= K -> (forall v, v ∈ r <-> 0 <= v < K) -> exists q, invertArrayO2N2N2O (vec r) K = Ok (Some <$> q) /\ zlen q = K /\ forall t i, last_pos r t i -> q @ t = Some i.
Proof.
  intros HK Hv. destruct (invertO2N_ok r K HK) as (q & E & Hl & H1 & _). { intros v Hx. apply Hv in Hx. by right. }
  assert (Hq : exists q', q = Some <$> q').
  { assert (forall t, 0 <= t < K -> exists i, q @ t = Some (Some i)). { intros t Ht. destruct (last_pos_exists r t) as [i Hi]; [by apply Hv|]. exists i. by apply H1. }
    clear -H Hl. exists (default 0 <$> q). apply zlook_ext. intros t. rewrite !zlook_fmap. destruct (q @ t) as [x|] eqn:Ex; [|done]. destruct (H t) as [i Hi]; [apply zlook_Some_lt in Ex; lia|]. assert (x = Some i) as -> by congruence. done. }
  destruct Hq as [q' ->]. exists q'. split; [done|]. rewrite zlen_fmap in Hl. split; [done|]. intros t i Hli. assert (0 <= t < K) as Ht. { apply Hv. destruct Hli as [Hli _]. by eapply zlook_elem. }
  specialize (H1 t i Ht Hli). rewrite zlook_fmap in H1. destruct (q' @ t) as [x|]; cbn in H1; congruence.
Qed.
Lemma zip_ok m cells nb p k : stores m cells -> has_nodes m nb -> (forall v, used cells v -> v < nb) -> 0 <= um_dim m -> policy_for p cells -> with_nodes cells -> 0 <= k ->
  exists m' r K new, zipConnectivityTraducer m p k = Ok (m', r) /\ quotient p k cells r K /\ stores m' new /\ typed m' new /\ um_dim m' = um_dim m /\ um_coords m' = um_coords m /\
    zlen new = K /\ kept_last cells new r.
Proof.
  intros Hst Hn Hu Hdim Hp Hw Hk. destruct (common_cells_ok m cells nb p k Hst Hn Hu ltac:(lia) Hp Hw Hk) as (gs & c & cI & E & Hsky & Hg).
  destruct (conv_ok p k cells gs c cI Hg Hsky) as (r & K & Eo & HK & HQ). destruct HQ as (Hl & Hs & Hv & Ho). destruct (o2n_inverse r K HK Hv) as (q & Eq & Hql & Hq).
  unfold zipConnectivityTraducer. rewrite E. cbn [bind]. rewrite (numCells_ok m cells Hst). cbn [bind]. rewrite Eo. cbn [bind]. rewrite initialised_ok. cbn [bind]. rewrite Eq. cbn [bind]. rewrite initialised_ok. cbn [bind].
  assert (Hqv : forall v, v ∈ q -> 0 <= v < zlen cells).
  { intros v Hx. apply elem_of_zlook in Hx as [t Ht]. pose proof (zlook_Some_lt _ _ _ Ht). destruct (last_pos_exists r t) as [i Hi]; [apply Hv; lia|]. rewrite (Hq t i Hi) in Ht. injection Ht as ->. destruct Hi as [Hi _]. apply zlook_Some_lt in Hi. lia. }
  destruct (picked_ex cells q Hqv) as [new Hnew]. destruct (part_ok m cells q new Hst Hnew) as (m1 & E1 & Hs1 & _). unfold buildPartOfMySelf, getMeshDimension. replace (um_dim m <? -1) with false by lia. cbn [ifthrow bind]. replace (um_dim m =? -1) with false by lia. cbn [negb]. rewrite E1. cbn [bind].
  destruct Hs1 as (conn1 & connI1 & Ec1 & EI1 & Hsky1). rewrite Ec1, EI1. unfold setConnectivity. rewrite (types_ok new) by done. cbn [bind].
  eexists _, r, K, new. split; [reflexivity|]. split; [done|]. split; [eexists _, _; done|]. split; [by apply typed_types|]. split; [done|]. split; [done|]. split; [rewrite (picked_len _ _ _ Hnew); done|].
  intros t i Hi. apply (picked_look cells q new t i Hnew). by apply Hq.
Qed.

(** * Meshes on the same coordinates *)
Lemma lens_app a b : lens (a ++ b) = lens a ++ lens b.
Proof. unfold lens. by rewrite !fmap_app. Qed.
Lemma conn_len (cs : list cell) : zlen (concat (pk <$> cs)) = zsum (lens cs).
Proof. apply zlen_concat. Qed.
Lemma sky_psums (cs : list cell) conn connI : skyline (pk <$> cs) conn connI -> conn = concat (pk <$> cs) /\ connI = psums (lens cs).
Proof. intros [-> H]. split; [done|]. by apply prefix_sums_eq. Qed.
Lemma zsum_lens_nonneg cs : 0 <= zsum (lens cs).
Proof. rewrite <- conn_len. apply zlen_nonneg. Qed.
Section Merge.
Context (d : Z).
Let blk (m : umesh) (cs : list cell) : Prop := stores m cs /\ um_dim m = d.
Let N (css : list (list cell)) : Z := zlen (concat css).
Let M (css : list (list cell)) : Z := zsum (lens (concat css)).

Lemma on_same_ok m0 ms css : -1 <= d -> Forall2 blk (m0 :: ms) css ->
  exists m', MergeUMeshesOnSameCoords (m0 :: ms) true = Ok m' /\ stores m' (concat css) /\ typed m' (concat css) /\ um_dim m' = d /\ um_coords m' = um_coords m0.
Proof.
  intros Hd HF. unfold MergeUMeshesOnSameCoords. assert (Hdim : forall m, um_dim m = d -> getMeshDimension m = Ok d). { intros m <-. unfold getMeshDimension. replace (um_dim m <? -1) with false by lia. done. }
  assert (Hm0 : um_dim m0 = d) by (inversion HF as [|? ? ? ? [_ H] _]; done). rewrite (Hdim m0 Hm0). cbn [bind negb ifthrow].
  rewrite (foldM_blocks _ blk (fun pre => (M pre, N pre)) (m0 :: ms) css HF).
  2:{ intros pre m cs post _ [Hs Hm]. cbn iota. rewrite (Hdim m Hm). cbn [bind]. rewrite Z.eqb_refl. cbn [negb ifthrow]. destruct (stores_get m cs Hs) as (conn & connI & Ec & EI & Hsky & _). rewrite Ec, (numCells_ok m cs Hs). cbn [bind].
      destruct (sky_psums _ _ _ Hsky) as [-> _]. rewrite conn_len. unfold M, N. rewrite concat_snoc, lens_app, zsum_app, zlen_app. done. }
  cbn [bind]. assert (HM : 0 <= M css) by apply zsum_lens_nonneg. assert (HN : 0 <= N css) by apply zlen_nonneg. rewrite !alloc1 by lia. cbn [bind].
  set (st := fun pre : list (list cell) => (ost (M css) (pk <$> concat pre), (if (length pre =? 0)%nat then malloc Z (N css + 1) else iost (N css) (lens (concat pre))),
    (if (length pre =? 0)%nat then 0 else zlen (concat pre) + 1), zsum (lens (concat pre)))).
  assert (E0 : (malloc Z (M css), malloc Z (N css + 1), 0, 0) = st []) by (unfold st; cbn; f_equal; f_equal; f_equal; apply ost_start). rewrite E0. clear E0.
  rewrite (foldM_blocks _ blk st (m0 :: ms) css HF).
  2:{ intros pre m cs post E [Hs Hm]. unfold st. destruct (stores_get m cs Hs) as (conn & connI & Ec & EI & Hsky & Hcl). unfold unchecked. rewrite Ec, EI, (numCells_ok m cs Hs). cbn [bind]. destruct (sky_psums _ _ _ Hsky) as [-> ->].
      assert (HMs : M css = zsum (lens (concat pre)) + zsum (lens cs) + zsum (lens (concat post))). { unfold M. rewrite E, concat_app, lens_app, zsum_app. cbn [concat]. rewrite lens_app, zsum_app. lia. }
      assert (HNs : N css = zlen (concat pre) + zlen cs + zlen (concat post)). { unfold N. rewrite E, concat_app, zlen_app. cbn [concat]. rewrite zlen_app. lia. }
      pose proof (zsum_lens_nonneg (concat post)). pose proof (zlen_nonneg (concat post)). pose proof (zlen_nonneg (concat pre)). pose proof (zlen_nonneg cs). pose proof (zsum_lens_nonneg (concat pre)). pose proof (zsum_lens_nonneg cs).
      rewrite conn_len. unfold ost at 1. rewrite copyc_fill by (rewrite ?conn_len; lia). cbn [bind]. rewrite <- (conn_len cs), sub_full.
      assert (Ho : (Some <$> (concat (pk <$> concat pre) ++ concat (pk <$> cs))) ++ malloc Z (M css - zlen (concat (pk <$> concat pre)) - (zlen (concat (pk <$> cs)) - 0)) = ost (M css) (pk <$> concat (pre ++ [cs]))).
      { unfold ost. rewrite concat_snoc, (fmap_app pk), (concat_app (pk <$> concat pre)), zlen_app. do 2 f_equal. lia. }
      rewrite Ho. clear Ho. replace (length (pre ++ [cs]) =? 0)%nat with false by (rewrite app_length; cbn; lia). rewrite concat_snoc, zlen_app, lens_app, zsum_app, conn_len.
      destruct (Nat.eqb_spec (length pre) 0) as [E0|E0].
      - apply nil_length_inv in E0 as ->. cbn [Z.ltb Z.compare concat]. change (zlen (@nil cell)) with 0. change (lens []) with (@nil Z). cbn [app].
        rewrite (fill_start (N css + 1)), copyc_fill; [|lia|lia|rewrite psums_len, lens_len; lia|cbn [concat] in HNs; change (zlen (@nil cell)) with 0 in HNs; lia|done]. cbn [bind]. f_equal. f_equal; try lia. f_equal; try lia. f_equal. unfold iost. cbn [app].
        rewrite <- (lens_len cs), <- (psums_len (lens cs)), sub_full. f_equal. f_equal. rewrite psums_len. lia.
      - replace (0 <? zlen (concat pre) + 1) with true by lia.
        pose proof (forZ_blocks (fun k r => let* v := rd (psums (lens cs)) (1 + k) in wrc r (zlen (concat pre) + 1 + k) (v + zsum (lens (concat pre)))) (fun q => iost (N css) (lens (concat pre ++ q))) (zlen cs) cs eq_refl) as HB.
        cbv beta in HB. rewrite app_nil_r in HB. rewrite HB.
        2:{ intros q c q' Eq. assert (Hql : zlen cs = zlen q + 1 + zlen q') by (rewrite Eq, zlen_app, zlen_cons; lia). pose proof (zlen_nonneg q). pose proof (zlen_nonneg q').
            assert (Hv : psums (lens cs) @ (1 + zlen q) = Some (zsum (lens q) + (1 + zlen c.2))).
            { pose proof (psums_delta (lens cs) _ (zlen q) (1 + zlen c.2) (psums_ok _)) as (a & Ha & Ha').
              { rewrite Eq, lens_app, zlook_app_r by (rewrite lens_len; lia). rewrite lens_len, Z.sub_diag. unfold lens. rewrite !fmap_cons, zlook_cons. cbn [Z.eqb]. by rewrite zlen_pk. }
              rewrite Z.add_comm, Ha'. f_equal. f_equal. destruct (psums_ok (lens cs)) as (_ & Hps). rewrite Eq, lens_app in Ha. unfold psums in Ha. rewrite zlook_fmap, zlook_seqZ in Ha by (rewrite zlen_app, lens_len; pose proof (zlen_nonneg (lens (c :: q'))); lia). cbn in Ha. injection Ha as <-. f_equal. symmetry. rewrite take_app_alt; [done|]. rewrite <- (lens_len q). unfold zlen. lia. }
            rewrite (rd_ok _ _ _ Hv). cbn [bind]. rewrite app_assoc. rewrite lens_snoc. apply iost_wr; [rewrite lens_len, zlen_app; lia|rewrite lens_len, zlen_app; lia|]. rewrite lens_app, zsum_app. lia. }
        cbn [bind]. f_equal. f_equal. f_equal; [|lia]. f_equal. by rewrite lens_app. }
  assert (length css =? 0 = false)%nat as El by (inversion HF; done). unfold st. rewrite El. cbn [bind].
  rewrite ost_end by (symmetry; apply conn_len). rewrite initialised_ok. cbn [bind]. assert (N css = zlen (lens (concat css))) as -> by (symmetry; apply lens_len). rewrite iost_end, initialised_ok. cbn [bind].
  unfold setConnectivity. assert (Hsk : skyline (pk <$> concat css) (concat (pk <$> concat css)) (psums (lens (concat css)))) by apply skyline_psums.
  rewrite (types_ok (concat css)) by done. cbn [bind]. eexists. split; [reflexivity|]. split; [eexists _, _; done|]. split; [by apply typed_types|done].
Qed.
End Merge.
