(** MergeNodesOnUMeshesSharingSameCoords, Build0DMeshFromCoords. *)
From Coq Require Import QArith ZifyBool ZifyNat.
From Verif Require Import CellModel Base DataArray ArrLib FillLib StdModel RenumModel RenumSpec SetsModel IndexModel IndexSpec IndexProofs2 IndexProofs3 IndexProofs4 IndexProofs6 SkyModel SkyProofs PartModel PartSpec TreeModel TreeSpec TreeProofs5 CellTable UmModel UmSpec UmProofs UmProofs2 UmProofs5 UmProofs6 UmProofs10 UcModel UcProofs4 TyModel TySpec MgModel MgSpec MgProofs MgProofs2.
Local Open Scope Z_scope.

Section Nodes.
Context (d : da Q) (nb : Z) (eps : Q).
Hypothesis Ha : da_alloc d = true.
Hypothesis Hw : da_wf d.
Hypothesis Hnc : 1 <= da_nc d <= 4.
Hypothesis Hnb : da_nt d = nb.
Hypothesis Htr : transitive_on nb (fun i j => near (da_vals d) (da_nc d) i eps (da_vals d) j).
Definition on_coords (m : umesh) (cells : list cell) : Prop := stores m cells /\ typed m cells /\ um_coords m = Some d /\ forall n, used cells n -> n < nb.
Lemma merge_nodes_on_ok m0 ms css : Forall2 on_coords (m0 :: ms) css ->
  exists ms' r K D, MergeNodesOnUMeshesSharingSameCoords (Some <$> (m0 :: ms)) true eps = Ok (Some <$> ms') /\ merged nb d eps r K /\ zlen ms' = zlen (m0 :: ms) /\
    forall i m cells, (m0 :: ms) @ i = Some m -> css @ i = Some cells -> exists m', ms' @ i = Some m' /\ stores m' (rename (ren r) <$> cells) /\ typed m' (rename (ren r) <$> cells) /\ um_dim m' = um_dim m /\
      um_coords m' = Some D /\ has_nodes m' K /\ (forall a i q, last_pos r a i -> point m i q -> point m' a q) /\ (forall i a q q', r @ i = Some a -> point m i q -> point m' a q' -> close eps q q').
Proof using Ha Hw Hnc Hnb Htr.
  intros HF. assert (Hall : forall m, m ∈ m0 :: ms -> exists cells, on_coords m cells). { intros m Hm. apply elem_of_list_lookup in Hm as [i Hi]. destruct (Forall2_lookup_l _ _ _ _ _ HF Hi) as (p & _ & H). by exists p. }
  destruct (Hall m0) as (c0 & Hs0 & _ & Hd0 & Hu0); [left|]. destruct (perm_ok m0 c0 nb d eps Hd0 Ha Hw Hnc Hnb Hu0 Htr) as (r & K & E & Hl & HK & Hsame & Hv & Ho).
  assert (Hmn : forall m, m ∈ m0 :: ms -> forall cells, on_coords m cells -> exists m', mergeNodes m eps = Ok (m', r, negb (nb =? K), K) /\ stores m' (rename (ren r) <$> cells) /\ typed m' (rename (ren r) <$> cells) /\ um_dim m' = um_dim m /\
     has_nodes m' K /\ (forall a i q, last_pos r a i -> point m i q -> point m' a q) /\ (forall i a q q', r @ i = Some a -> point m i q -> point m' a q' -> close eps q q')).
  { intros m Hm cells (H1 & H2 & H3 & H4). destruct (merge_ok m cells nb d eps H1 H2 H3 Ha Hw Hnc Hnb H4 Htr) as (m' & r' & K' & E' & Hmg & H5). 
    assert (r' = r /\ K' = K) as [-> ->]. { unfold mergeNodes in E'. assert (Eb : buildPermArrayForMergeNode m eps (-1) = Ok (r, K)) by (rewrite <- E; unfold buildPermArrayForMergeNode, getNumberOfNodes; rewrite H3, Hd0; done). rewrite Eb in E'. cbn [bind] in E'.
      destruct (getNumberOfNodes m); cbn [bind] in E'; try done. destruct (if negb (a =? K) then _ else _); cbn [bind] in E'; try done. injection E'. done. }
    exists m'. done. }
  assert (Hmerged : merged nb d eps r K) by done.
  assert (Eb : exists comm commI o, findCommonTuples d eps (-1) = Ok (comm, commI) /\ ConvertIndexArrayToO2N nb comm commI = Ok (o, K) /\ initialised o = Ok r).
  { unfold buildPermArrayForMergeNode, getNumberOfNodes in E. rewrite Hd0 in E. destruct (findCommonTuples d eps (-1)) as [[comm commI]| | |]; cbn [bind] in E; try done. rewrite Hnb in E. destruct (ConvertIndexArrayToO2N nb comm commI) as [[o K']| | |] eqn:E2; cbn [bind] in E; try done.
    destruct (initialised o) as [o'| | |] eqn:E3; cbn [bind] in E; try done. injection E as <- <-. exists comm, commI, o. done. }
  destruct Eb as (comm & commI & o & E1 & E2 & E3).
  unfold MergeNodesOnUMeshesSharingSameCoords. rewrite zlen_fmap. replace (zlen (m0 :: ms) =? 0) with false by (rewrite zlen_cons; pose proof (zlen_nonneg ms); lia). rewrite all_there, omap_all. cbn [negb ifthrow]. rewrite Hd0, E1. cbn [bind]. rewrite Hnb, E2. cbn [bind]. rewrite E3. cbn [bind].
  destruct (Z.eqb_spec nb K) as [EK|EK].
  - exists (m0 :: ms), r, K, d. split; [done|]. split; [done|]. split; [done|]. intros i m cells Hi Hc. assert (Hon : on_coords m cells). { apply zlook_Some_lt in Hi as Hr. rewrite zlook_to_nat in Hi by lia. rewrite zlook_to_nat in Hc by lia. exact (Forall2_lookup_lr _ _ _ _ _ _ HF Hi Hc). }
    destruct (Hmn m ltac:(eapply zlook_elem; exact Hi) cells Hon) as (m' & Em & H1 & H2 & H3 & H4 & H5 & H6). exists m.
    assert (m' = m) as ->. { unfold mergeNodes in Em. destruct (buildPermArrayForMergeNode m eps (-1)) as [[r' K']| | |]; cbn [bind] in Em; try done. unfold getNumberOfNodes in Em. destruct Hon as (_ & _ & Hdm & _). rewrite Hdm in Em. cbn [bind] in Em. rewrite Hnb in Em. destruct (Z.eqb_spec nb K') as [EK'|EK']; cbn [negb] in Em; [cbn [bind] in Em; congruence|].
      destruct (renumberNodes m r' K'); cbn [bind] in Em; try done; injection Em; intros; subst; lia. }
    split; [done|]. split; [done|]. split; [done|]. split; [done|]. split; [by destruct Hon as (_ & _ & ? & _)|done].
  - assert (Hlr : zlen r = da_nt d) by (rewrite Hnb; exact Hl). assert (Hvl : forall v, v ∈ r -> v < K) by (intros v Hx; apply Hv in Hx; lia). assert (Hva : forall t, 0 <= t < K -> t ∈ r) by (intros t Ht; by apply Hv).
    destruct (reduce_written d r K Ha Hw ltac:(lia) Hlr ltac:(lia) Hvl Hva) as (l & El & Hll & Hsub).
    rewrite El. cbn [bind]. rewrite written_ok. cbn [bind]. set (D := DA true (da_nc d) l) in *.
    assert (Hstep : forall m, m ∈ m0 :: ms -> exists m1, renumberNodesInConn m r = Ok m1 /\ mergeNodes m eps = Ok (setCoords m1 D, r, negb (nb =? K), K)).
    { intros m Hm. destruct (Hall m Hm) as [cells Hon]. destruct (Hmn m Hm cells Hon) as (m' & Em & _). destruct Hon as (H1 & _ & H3 & H4). destruct (renumberConn_ok m cells r H1) as (m1 & Em1 & _); [intros v Hx; rewrite Hl; auto|]. exists m1. split; [done|].
      cut (m' = setCoords m1 D); [intros EE; rewrite Em, EE; by replace (nb =? K) with false by lia|]. unfold mergeNodes in Em. assert (Eb : buildPermArrayForMergeNode m eps (-1) = Ok (r, K)) by (rewrite <- E; unfold buildPermArrayForMergeNode, getNumberOfNodes; rewrite H3, Hd0; done). rewrite Eb in Em. cbn [bind] in Em.
      unfold getNumberOfNodes in Em. rewrite H3 in Em. cbn [bind] in Em. rewrite Hnb in Em. replace (nb =? K) with false in Em by lia. cbn [negb] in Em. unfold renumberNodes in Em. rewrite H3, El in Em. cbn [bind] in Em. rewrite Em1 in Em. cbn [bind] in Em. rewrite written_ok in Em. cbn [bind] in Em. injection Em as <-. done. }
    assert (G : forall r0 pre, (forall m, m ∈ r0 -> m ∈ m0 :: ms) -> exists r', foldM (fun out m => let* m := renumberNodesInConn m r in Ok (out ++ [Some (setCoords m D)])) r0 (Some <$> pre) = Ok (Some <$> (pre ++ r')) /\ zlen r' = zlen r0 /\
       forall i m, r0 @ i = Some m -> exists m', r' @ i = Some m' /\ um_coords m' = Some D /\ mergeNodes m eps = Ok (m', r, negb (nb =? K), K)).
    { induction r0 as [|m r0 IH]; intros pre Hr; [exists []; split; [cbn; by rewrite app_nil_r|]; split; [done|]; intros i m Hi; by rewrite zlook_nil in Hi|]. cbn [foldM]. destruct (Hstep m) as (m1 & Em1 & Em); [apply Hr; left|]. rewrite Em1. cbn [bind].
      replace ((Some <$> pre) ++ [Some (setCoords m1 D)]) with (Some <$> (pre ++ [setCoords m1 D])) by (by rewrite fmap_app). destruct (IH (pre ++ [setCoords m1 D])) as (r' & -> & Hlr' & Hr'); [intros; apply Hr; by right|].
      exists (setCoords m1 D :: r'). split; [by rewrite <- app_assoc|]. split; [rewrite !zlen_cons; lia|]. intros i mi Hi. rewrite zlook_cons in Hi |- *. destruct (i =? 0); [injection Hi as <-; eauto|auto]. }
    destruct (G (m0 :: ms) []) as (ms' & Ef & Hlm & Hms); [done|]. change (Some <$> @nil umesh) with (@nil (option umesh)) in Ef. exists ms', r, K, D. split; [exact Ef|]. split; [done|]. split; [done|]. intros i m cells Hi Hc. destruct (Hms i m Hi) as (m' & Hm' & HD & Em). exists m'. split; [done|].
    assert (Hon : on_coords m cells). { apply zlook_Some_lt in Hi as Hr. rewrite zlook_to_nat in Hi by lia. rewrite zlook_to_nat in Hc by lia. exact (Forall2_lookup_lr _ _ _ _ _ _ HF Hi Hc). }
    destruct (Hmn m ltac:(eapply zlook_elem; exact Hi) cells Hon) as (m'' & Em' & H1 & H2 & H3 & H4 & H5 & H6). rewrite Em in Em'. injection Em' as <-. done.
Qed.
End Nodes.
Lemma merge_nodes_none ms eps : (forall o, o ∈ ms -> exists m, o = Some m /\ um_coords m = None) -> MergeNodesOnUMeshesSharingSameCoords ms true eps = Ok ms.
Proof.
  intros H. unfold MergeNodesOnUMeshesSharingSameCoords. destruct (zlen ms =? 0) eqn:E; [done|]. assert (exists l, ms = Some <$> l) as [l ->].
  { clear E. induction ms as [|o ms IH]; [by exists []|]. destruct IH as [l ->]; [intros; apply H; by right|]. destruct (H o) as (m & -> & _); [left|]. by exists (m :: l). }
  rewrite all_there, omap_all. cbn [negb ifthrow]. destruct l as [|m0 l]; [done|]. destruct (H (Some m0)) as (m & [= <-] & ->); [left|]. done.
Qed.
Lemma merge_nodes_throw ms same eps : ms <> [] -> None ∈ ms \/ same = false \/ (exists m d, head ms = Some (Some m) /\ um_coords m = Some d /\ da_wf d /\ ~ (da_alloc d = true /\ 1 <= da_nc d <= 4)) -> MergeNodesOnUMeshesSharingSameCoords ms same eps = Throw.
Proof.
  intros Hne Hor. unfold MergeNodesOnUMeshesSharingSameCoords. destruct ms as [|o ms]; [done|]. replace (zlen (o :: ms) =? 0) with false by (rewrite zlen_cons; pose proof (zlen_nonneg ms); lia).
  destruct (forallb _ _) eqn:Ef; [|done]. cbn [negb ifthrow]. destruct Hor as [Hin|[->|(m & d & Hm & Hd & Hw & Hbad)]]; [by rewrite one_missing in Ef|done|]. injection Hm as ->. destruct same; [|done]. cbn [negb ifthrow omap list_omap]. unfold id at 1.
  rewrite Hd. rewrite (proj2 (common_throw d eps (-1) Hw) Hbad). done.
Qed.

(** * Meshes of points *)
Definition point_cell (i : Z) : cell := (NORM_POINT1, [i]).
Lemma points_lens l : zsum (lens (point_cell <$> l)) = 2 * zlen l.
Proof. induction l as [|x l IH]; [done|]. rewrite fmap_cons. unfold lens in *. rewrite !fmap_cons. change (zsum (?x :: ?l)) with (x + zsum l). rewrite IH, zlen_cons. change (zlen (pk (point_cell x))) with 2. lia. Qed.
Lemma build0D_ok d : da_alloc d = true -> da_wf d -> exists m, Build0DMeshFromCoords (Some d) = Ok m /\ stores m (point_cell <$> seqZ 0 (da_nt d)) /\ typed m (point_cell <$> seqZ 0 (da_nt d)) /\ um_dim m = 0 /\ um_coords m = Some d.
Proof.
  intros Ha Hw. unfold Build0DMeshFromCoords. rewrite Ha. cbn [negb ifthrow]. destruct (da_wf_len d Hw) as (_ & Hn & _). set (n := da_nt d) in *. rewrite !alloc1 by lia. cbn [bind]. rewrite iost_start by lia. cbn [bind].
  set (st := fun pre : list Z => (ost (2 * n) (pk <$> (point_cell <$> pre)), iost n (lens (point_cell <$> pre)))).
  assert (E0 : (malloc Z (2 * n), iost n []) = st []) by (unfold st; cbn; f_equal; apply ost_start). rewrite E0.
  assert (Hlen : zlen (seqZ 0 n) = n) by (unfold zlen; rewrite seqZ_length; lia).
  rewrite (forZ_blocks _ st n (seqZ 0 n) Hlen).
  2:{ intros pre b post E. assert (Hb : b = zlen pre). { assert (Hx : seqZ 0 n @ zlen pre = Some b) by (rewrite E, zlook_app_r by lia; rewrite Z.sub_diag; done). apply zlook_Some_lt in Hx as ?. rewrite zlook_seqZ in Hx by lia. injection Hx. lia. }
      assert (Hlt : zlen pre + 1 + zlen post = n) by (rewrite <- Hlen, E, zlen_app, zlen_cons; lia). pose proof (zlen_nonneg post). pose proof (zlen_nonneg pre). unfold st at 1. cbv beta iota.
      assert (HZ : zlen (concat (pk <$> (point_cell <$> pre))) = 2 * zlen pre) by (rewrite conn_len; apply points_lens).
      unfold ost. rewrite wrc_fill by lia. cbn [bind]. rewrite wrc_fill by (rewrite ?zlen_app, ?HZ; change (zlen [NORM_POINT1]) with 1; lia). cbn [bind].
      rewrite (iost_wr n (lens (point_cell <$> pre)) 2); [|rewrite lens_len, zlen_fmap; lia|rewrite lens_len, zlen_fmap; lia|rewrite points_lens; lia]. cbn [bind]. unfold st. f_equal. apply f_equal2.
      - unfold ost. rewrite !fmap_app, concat_app, zlen_app, HZ. change (point_cell <$> [b]) with [point_cell b]. change (pk <$> [point_cell b]) with [[NORM_POINT1; b]]. cbn [concat]. change (zlen ([NORM_POINT1; b] ++ [])) with 2. rewrite !fmap_app. rewrite <- !app_assoc. f_equal. rewrite Hb. cbn. do 3 f_equal. lia.
      - rewrite fmap_app. change (point_cell <$> [b]) with [point_cell b]. rewrite lens_snoc. done. }
  unfold st. cbn [bind]. rewrite ost_end by (rewrite conn_len, points_lens; lia). rewrite initialised_ok. cbn [bind]. assert (Ei : iost n (lens (point_cell <$> seqZ 0 n)) = Some <$> psums (lens (point_cell <$> seqZ 0 n))) by (rewrite <- iost_end; f_equal; rewrite lens_len, zlen_fmap; lia). rewrite Ei, initialised_ok. cbn [bind].
  unfold setConnectivity. assert (Hsk : skyline (pk <$> (point_cell <$> seqZ 0 n)) (concat (pk <$> (point_cell <$> seqZ 0 n))) (psums (lens (point_cell <$> seqZ 0 n)))) by apply skyline_psums.
  rewrite (types_ok (point_cell <$> seqZ 0 n)) by done. cbn [bind]. eexists. split; [reflexivity|]. split; [eexists _, _; done|]. split; [by apply typed_types|done].
Qed.
Lemma build0D_throw o : (forall d, o = Some d -> da_alloc d = false) -> Build0DMeshFromCoords o = Throw.
Proof. intros H. destruct o as [d|]; [|done]. unfold Build0DMeshFromCoords. by rewrite (H d eq_refl). Qed.
