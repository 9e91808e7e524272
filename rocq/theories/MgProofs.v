(** Merge of meshes. *)
From Coq Require Import QArith ZifyBool ZifyNat.
From Verif Require Import CellModel Base DataArray ArrLib FillLib StdModel RenumModel SetsModel IndexModel IndexSpec IndexProofs2 IndexProofs3 IndexProofs4 IndexProofs6 SkyModel SkyProofs PartModel TreeModel CellTable UmModel UmSpec UmProofs UmProofs2 UmProofs5 UmProofs10 UcModel UcProofs4 TyModel TySpec MgModel MgSpec.
Local Open Scope Z_scope.

(** A mesh with its three arrays. *)
Definition full (d sd : Z) (m : umesh) (p : list cell * Z) : Prop := stores m p.1 /\ nodes_in m sd p.2 /\ um_dim m = d /\ separators p.1.
Definition shift (o : Z) (c : cell) : cell := rename (fun n => n + o) c.
Lemma side_snoc info cs nb o : side_by_side o (info ++ [(cs, nb)]) = side_by_side o info ++ (shift (o + zsum (snd <$> info)) <$> cs).
Proof.
  revert o. induction info as [|[cs' nb'] r IH]; intros o; cbn [app side_by_side]; [rewrite app_nil_r; change (zsum (snd <$> [])) with 0; rewrite Z.add_0_r; done|].
  rewrite IH, app_assoc. rewrite fmap_cons. change (zsum (?x :: ?l)) with (x + zsum l). cbn [snd]. rewrite Z.add_assoc. done.
Qed.
Lemma rename_len f cs : lens (rename f <$> cs) = lens cs.
Proof. unfold lens. rewrite <- !list_fmap_compose. apply list_fmap_ext. intros i c _. cbn. rewrite !zlen_pk. cbn. by rewrite zlen_fmap. Qed.
Lemma side_app info info' o : exists cs', side_by_side o (info ++ info') = side_by_side o info ++ cs'.
Proof. revert o. induction info as [|[cs nb] r IH]; intros o; cbn [app side_by_side]; [by eexists|]. destruct (IH (o + nb)) as [cs' ->]. exists cs'. by rewrite app_assoc. Qed.

(** The copy of the nodes of one cell, then of the cells. *)
Lemma copyCells_ok cs conn connI o2 M k : skyline (pk <$> cs) conn connI -> separators cs -> zlen k + zsum (lens cs) <= M ->
  copyCells conn connI (zlen cs) o2 ((Some <$> k) ++ malloc Z (M - zlen k)) (zlen k) = Ok ((Some <$> (k ++ concat (pk <$> (shift o2 <$> cs)))) ++ malloc Z (M - zlen k - zsum (lens cs)), zlen k + zsum (lens cs)).
Proof.
  intros Hsky Hsep HM. unfold copyCells.
  set (st := fun q : list cell => ((Some <$> (k ++ concat (pk <$> (shift o2 <$> q)))) ++ malloc Z (M - zlen k - zsum (lens q)), zlen k + zsum (lens q))).
  assert (E0 : ((Some <$> k) ++ malloc Z (M - zlen k), zlen k) = st []). { unfold st. change (lens []) with (@nil Z). change (zsum []) with 0. cbn. rewrite app_nil_r, !Z.add_0_r, Z.sub_0_r. done. }
  rewrite E0. apply (forZ_blocks _ st _ cs eq_refl). intros pre c post E. destruct (cell_at cs conn connI (zlen pre) c Hsky) as (a & Ha & Hb & H0 & Hle & P & R & Ec & EP).
  { rewrite E, zlook_app_r by lia. rewrite Z.sub_diag. done. }
  assert (HM' : zsum (lens cs) = zsum (lens pre) + (1 + zlen c.2) + zsum (lens post)). { rewrite E, (lens_app pre (c :: post)), zsum_app. unfold lens at 2. rewrite !fmap_cons. change (zsum (?x :: ?l)) with (x + zsum l). rewrite zlen_pk. unfold lens. lia. }
  pose proof (zsum_lens_nonneg post). pose proof (zsum_lens_nonneg pre). pose proof (zlen_nonneg c.2). unfold st at 1. cbv beta iota.
  rewrite (rd_ok _ _ _ Ha). cbn [bind]. rewrite (rd_ok _ _ _ Hb). cbn [bind].
  assert (Ht : conn @ a = Some c.1). { rewrite Ec, zlook_app_r by lia. replace (a - zlen P) with 0 by lia. done. }
  rewrite (rd_ok _ _ _ Ht). cbn [bind]. set (K := k ++ concat (pk <$> (shift o2 <$> pre))).
  assert (HK : zlen K = zlen k + zsum (lens pre)). { unfold K. rewrite zlen_app, conn_len. unfold shift. rewrite rename_len. done. }
  rewrite wrc_fill by lia. cbn [bind]. replace (a + 1 + zlen c.2 <? a + 1) with false by lia. cbn [ubif].
  set (g := fun v => if 0 <=? v then v + o2 else v).
  match goal with |- context [forZ ?x ?y ?f ?s0] => assert (W : wp (forZ x y f s0) (fun s => s = st (pre ++ [c])) False) end.
  { apply (wp_forZ (fun q s => s = ((Some <$> (K ++ [c.1] ++ (g <$> take (Z.to_nat (q - a - 1)) c.2))) ++ malloc Z (M - zlen K - 1 - (q - a - 1)), zlen K + 1 + (q - a - 1)))).
    - lia.
    - replace (a + 1 - a - 1) with 0 by lia. rewrite take_0, HK. cbn [fmap list_fmap]. rewrite app_nil_r. f_equal; [f_equal; f_equal; lia|lia].
    - intros q s Hq ->. assert (Hv : exists v, c.2 @ (q - a - 1) = Some v) by (apply zlook_lt; lia). destruct Hv as [v Hv].
      assert (Hcq : conn @ q = Some v). { rewrite Ec, zlook_app_r by lia. rewrite zlook_app_l by (rewrite zlen_pk; lia). unfold pk. rewrite zlook_cons. replace (q - zlen P =? 0) with false by lia. rewrite <- Hv. f_equal. lia. }
      rewrite (rd_ok _ _ _ Hcq). cbn [bind].
      assert (Hw : (if negb (v =? -1) then v + o2 else -1) = g v). { assert (-1 <= v) by (apply (Hsep c); [rewrite E; apply elem_of_app; right; left|by eapply zlook_elem]). unfold g. destruct (Z.eqb_spec v (-1)) as [->|]; [done|]. replace (0 <=? v) with true by lia. done. }
      rewrite Hw. assert (Hlt : zlen (K ++ [c.1] ++ (g <$> take (Z.to_nat (q - a - 1)) c.2)) = zlen K + 1 + (q - a - 1)).
      { rewrite !zlen_app, zlen_fmap. change (zlen [c.1]) with 1. unfold zlen at 2. rewrite take_length. unfold zlen in Hq. lia. }
      rewrite wrc_fill by lia. cbn [bind wp]. f_equal; [|lia]. f_equal; [|f_equal; lia]. f_equal. rewrite <- !app_assoc. do 2 f_equal.
      replace (Z.to_nat (q + 1 - a - 1)) with (S (Z.to_nat (q - a - 1))) by lia. rewrite zlook_to_nat in Hv by lia. rewrite (take_S_r _ _ _ Hv), fmap_app. done.
    - intros s ->. unfold st. rewrite lens_snoc, zsum_app. change (zsum [?x]) with (x + 0). rewrite HK. f_equal; [|lia]. f_equal; [|f_equal; lia]. f_equal. unfold K.
      rewrite !fmap_app. rewrite concat_app, <- app_assoc. do 2 f_equal. change (shift o2 <$> [c]) with [shift o2 c]. change (pk <$> [shift o2 c]) with [pk (shift o2 c)]. cbn [concat]. rewrite app_nil_r.
      replace (a + 1 + zlen c.2 - a - 1) with (zlen c.2) by lia. rewrite take_ge by (unfold zlen; lia). done. }
  apply wp_ok in W as (s & Es & ->). rewrite <- Es. done.
Qed.

(** The coordinates put one after the other. *)
Definition coordsOf (m : umesh) : list Q := match um_coords m with Some d => da_vals d | None => [] end.
Definition joined (sd : Z) (ms : list umesh) : da Q := DA true sd (concat (coordsOf <$> ms)).
Lemma nodes_len m sd nb : nodes_in m sd nb -> zlen (coordsOf m) = nb * sd /\ 0 <= nb /\ 0 <= sd /\ (sd = 0 -> nb = 0).
Proof.
  intros (d & Hd & _ & Hw & <- & <-). unfold coordsOf. rewrite Hd. destruct (da_wf_len d Hw) as (H1 & H2 & H3). split; [done|]. split; [done|]. split; [done|]. intros E. unfold da_nt. rewrite E. done.
Qed.
Lemma joined_len sd ms info : Forall2 (fun m (p : list cell * Z) => nodes_in m sd p.2) ms info -> zlen (concat (coordsOf <$> ms)) = zsum (snd <$> info) * sd /\ 0 <= zsum (snd <$> info) /\ (sd = 0 -> zsum (snd <$> info) = 0).
Proof.
  intros H. induction H as [|m p ms info Hm H IH]; [done|]. rewrite !fmap_cons. change (zsum (?x :: ?l)) with (x + zsum l). cbn [concat]. rewrite zlen_app. destruct (nodes_len _ _ _ Hm) as (L1 & L2 & L3 & L4). destruct IH as (I1 & I2 & I3).
  split; [rewrite L1; fold (concat (coordsOf <$> ms)); rewrite I1; lia|]. split; [lia|]. intros E. rewrite (L4 E), (I3 E). done.
Qed.
Lemma joined_nodes sd ms info m' : 0 <= sd -> Forall2 (fun m (p : list cell * Z) => nodes_in m sd p.2) ms info -> um_coords m' = Some (joined sd ms) -> nodes_in m' sd (zsum (snd <$> info)).
Proof.
  intros Hsd H Hm. destruct (joined_len sd ms info H) as (H1 & H2 & H3). exists (joined sd ms). split; [done|]. split; [done|]. split; [split; [done|]; exists (zsum (snd <$> info)); split; [done|cbn [joined da_vals da_nc]; lia]|]. split; [done|].
  destruct (decide (sd = 0)) as [E|E]; [unfold da_nt; cbn [joined da_nc]; rewrite E, H3 by done; done|]. apply da_nt_mul; [lia|done|lia].
Qed.
Lemma joined_points sd ms info i m k q m' : Forall2 (fun m (p : list cell * Z) => nodes_in m sd p.2) ms info -> um_coords m' = Some (joined sd ms) -> ms @ i = Some m -> point m k q -> point m' (nodes_before info i + k) q.
Proof.
  intros H Hm' Hi Hp. assert (Hs : exists pre post, ms = pre ++ m :: post /\ zlen pre = i).
  { apply zlook_Some_lt in Hi as ?. rewrite zlook_to_nat in Hi by lia. exists (take (Z.to_nat i) ms), (drop (S (Z.to_nat i)) ms). split; [symmetry; by apply take_drop_middle|]. unfold zlen. rewrite take_length. unfold zlen in *. lia. }
  destruct Hs as (pre & post & -> & Hl). apply Forall2_app_inv_l in H as (ipre & ipost & H1 & H2 & ->). inversion H2 as [|? p ? ipost' Hm H3]. subst ipost x l.
  assert (Hnb : nodes_before (ipre ++ p :: ipost') i = zsum (snd <$> ipre)). { unfold nodes_before. rewrite fmap_app. rewrite take_app_alt; [done|]. rewrite fmap_length, <- (Forall2_length _ _ _ H1), <- Hl. unfold zlen. lia. }
  rewrite Hnb. destruct (joined_len _ _ _ H1) as (A1 & A2 & A3). destruct (joined_len _ _ _ H3) as (B1 & B2 & B3). destruct (nodes_len _ _ _ Hm) as (L1 & L2 & L3 & L4).
  assert (Hall : Forall2 (fun m (p : list cell * Z) => nodes_in m sd p.2) (pre ++ m :: post) (ipre ++ p :: ipost')) by (apply Forall2_app; [done|by constructor]).
  destruct (joined_nodes sd _ _ m' L3 Hall Hm') as (D & HD & _ & _ & _ & Hnt). rewrite Hm' in HD. injection HD as <-.
  assert (Hz : zsum (snd <$> (ipre ++ p :: ipost')) = zsum (snd <$> ipre) + (p.2 + zsum (snd <$> ipost'))) by (rewrite fmap_app, zsum_app; done). destruct Hp as (d & Hd & Hda & Hk & ->).
  destruct Hm as (d' & Hd' & _ & Hw & Hnc & Hnt'). rewrite Hd in Hd'. injection Hd' as <-. rewrite Hnt' in Hk.
  exists (joined sd (pre ++ m :: post)). split; [done|]. split; [done|]. split; [rewrite Hnt, Hz; lia|]. cbn [joined da_vals da_nc]. rewrite Hnc.
  assert (Ev : concat (coordsOf <$> (pre ++ m :: post)) = concat (coordsOf <$> pre) ++ coordsOf m ++ concat (coordsOf <$> post)) by (rewrite fmap_app, concat_app; done).
  assert (Hcm : coordsOf m = da_vals d) by (unfold coordsOf; by rewrite Hd). rewrite Ev. rewrite Hcm in L1 |- *.
  apply sub_ext; try nia; [rewrite !zlen_app; nia|]. intros j Hj. rewrite zlook_app_r by nia. rewrite zlook_app_l by nia. f_equal. nia.
Qed.
Lemma nodesArray_ok d sd m0 ms info : Forall2 (full d sd) (m0 :: ms) info -> MergeNodesArray (m0 :: ms) = Ok (DA true sd (Some <$> concat (coordsOf <$> (m0 :: ms)))).
Proof.
  intros H. assert (Hc : forall m, m ∈ m0 :: ms -> exists x, um_coords m = Some x /\ da_alloc x = true /\ da_wf x /\ da_nc x = sd).
  { intros m Hm. apply elem_of_list_lookup in Hm as [i Hi]. destruct (Forall2_lookup_l _ _ _ _ _ H Hi) as (p & _ & _ & (x & X1 & X2 & X3 & X4 & _) & _). exists x. done. }
  clear H info. unfold MergeNodesArray. destruct (Hc m0) as (d0 & E0 & A0 & W0 & N0); [left|]. rewrite E0, A0. cbn [negb ifthrow].
  assert (Hf : foldM (fun coo m => match um_coords m with None => Throw | Some d => throw_if negb (da_alloc d) >>> throw_if negb (da_nc d =? da_nc d0) >>> Ok (coo ++ [Some d]) end) ms [Some d0] = Ok (um_coords <$> (m0 :: ms))).
  { rewrite <- E0. change [um_coords m0] with (um_coords <$> [m0]). assert (G : forall r pre, (forall m, m ∈ r -> m ∈ m0 :: ms) -> foldM (fun coo m => match um_coords m with None => Throw | Some d => throw_if negb (da_alloc d) >>> throw_if negb (da_nc d =? da_nc d0) >>> Ok (coo ++ [Some d]) end) r (um_coords <$> pre) = Ok (um_coords <$> (pre ++ r))).
    { induction r as [|m r IH]; intros pre Hr; [rewrite app_nil_r; done|]. cbn [foldM]. destruct (Hc m) as (x & Ex & Ax & Wx & Nx); [apply Hr; left|]. rewrite Ex, Ax. replace (da_nc x =? da_nc d0) with true by lia. cbn [negb ifthrow bind].
      replace ((um_coords <$> pre) ++ [Some x]) with (um_coords <$> (pre ++ [m])) by (rewrite fmap_app; f_equal; change (um_coords <$> [m]) with [um_coords m]; by rewrite Ex).
      rewrite IH by (intros; apply Hr; by right). by rewrite <- app_assoc. }
    apply G. intros m Hm. by right. }
  rewrite Hf. cbn [bind]. rewrite (aggregate_ok _ sd).
  - do 4 f_equal. assert (G : forall r : list umesh, (forall m, m ∈ r -> m ∈ m0 :: ms) -> da_vals <$> omap id (um_coords <$> r) = coordsOf <$> r).
    { induction r as [|m r IH]; intros Hr; [done|]. destruct (Hc m) as (x & Ex & _); [apply Hr; left|]. rewrite !fmap_cons. cbn [omap list_omap]. unfold id at 1. rewrite Ex. rewrite fmap_cons, IH by (intros; apply Hr; by right). f_equal. unfold coordsOf. by rewrite Ex. }
    apply G. done.
  - rewrite fmap_cons. rewrite E0. done.
  - intros x Hx. apply elem_of_list_fmap in Hx as (m & Em & Hm). destruct (Hc m Hm) as (x' & Ex & _ & Wx & Nx). rewrite Ex in Em. injection Em as ->. done.
Qed.

Section LL.
Context (d sd : Z).
Let css (info : list (list cell * Z)) := side_by_side 0 info.
Let N (info : list (list cell * Z)) : Z := zlen (css info).
Let M (info : list (list cell * Z)) : Z := zsum (lens (css info)).
Let nn (info : list (list cell * Z)) : Z := zsum (snd <$> info).
Lemma N_snoc pre p : N (pre ++ [p]) = N pre + zlen p.1.
Proof. destruct p as [cs nb]. unfold N, css. rewrite side_snoc, zlen_app, zlen_fmap. done. Qed.
Lemma M_snoc pre p : M (pre ++ [p]) = M pre + zsum (lens p.1).
Proof. destruct p as [cs nb]. unfold M, css. rewrite side_snoc, lens_app, zsum_app. unfold shift. rewrite rename_len. done. Qed.
Lemma nn_snoc pre p : nn (pre ++ [p]) = nn pre + p.2.
Proof. unfold nn. rewrite fmap_app, zsum_app. change (zsum (snd <$> [p])) with (p.2 + 0). lia. Qed.
Lemma N_le a b : N a <= N (a ++ b).
Proof. unfold N, css. destruct (side_app a b 0) as [c ->]. rewrite zlen_app. pose proof (zlen_nonneg c). lia. Qed.
Lemma M_le a b : M a <= M (a ++ b).
Proof. unfold M, css. destruct (side_app a b 0) as [c ->]. rewrite lens_app, zsum_app. pose proof (zsum_lens_nonneg c). lia. Qed.
Lemma LL_ok m0 ms info : 0 <= d -> Forall2 (full d sd) (m0 :: ms) info ->
  exists m', MergeUMeshesLL (m0 :: ms) = Ok m' /\ stores m' (css info) /\ typed m' (css info) /\ um_dim m' = d /\ um_coords m' = Some (joined sd (m0 :: ms)).
Proof.
  intros Hd HF. unfold MergeUMeshesLL. assert (Hdim : forall m, um_dim m = d -> getMeshDimension m = Ok d). { intros m <-. unfold getMeshDimension. replace (um_dim m <? -1) with false by lia. done. }
  assert (Hm0 : um_dim m0 = d) by (inversion HF as [|? ? ? ? (_ & _ & H & _) _]; done). rewrite (Hdim m0 Hm0). cbn [bind].
  rewrite (foldM_blocks _ (full d sd) (fun pre => (N pre, M pre)) (m0 :: ms) info HF).
  2:{ intros pre m p post _ (Hs & _ & Hm & _). cbn iota. rewrite (Hdim m Hm). cbn [bind]. rewrite Z.eqb_refl. cbn [negb ifthrow]. destruct (stores_get m p.1 Hs) as (conn & connI & Ec & EI & Hsky & _). rewrite Ec, (numCells_ok m p.1 Hs). cbn [bind].
      destruct (sky_psums _ _ _ Hsky) as [-> _]. rewrite conn_len, N_snoc, M_snoc. done. }
  cbn [bind]. rewrite (nodesArray_ok d sd m0 ms info HF). cbn [bind]. rewrite written_ok. cbn [bind].
  assert (HM : 0 <= M info) by apply zsum_lens_nonneg. assert (HN : 0 <= N info) by apply zlen_nonneg. rewrite !alloc1 by lia. cbn [bind]. rewrite iost_start by lia. cbn [bind].
  set (st := fun pre : list (list cell * Z) => (ost (M info) (pk <$> css pre), iost (N info) (lens (css pre)), M pre, N pre + 1, M pre, nn pre)).
  assert (E0 : (malloc Z (M info), iost (N info) [], 0, 1, 0, 0) = st []) by (unfold st; cbn; f_equal; f_equal; f_equal; f_equal; f_equal; apply ost_start). rewrite E0. clear E0.
  rewrite (foldM_blocks _ (full d sd) st (m0 :: ms) info HF).
  2:{ intros pre m p post E (Hs & Hn & Hm & Hsep). unfold st at 1. destruct (stores_get m p.1 Hs) as (conn & connI & Ec & EI & Hsky & Hcl). unfold unchecked. rewrite Ec, EI, (numCells_ok m p.1 Hs). cbn [bind].
      assert (HN' : N pre + zlen p.1 <= N info). { rewrite <- N_snoc, E. replace (pre ++ p :: post) with ((pre ++ [p]) ++ post) by (by rewrite <- app_assoc). apply N_le. }
      assert (HM' : M pre + zsum (lens p.1) <= M info). { rewrite <- M_snoc, E. replace (pre ++ p :: post) with ((pre ++ [p]) ++ post) by (by rewrite <- app_assoc). apply M_le. }
      pose proof (zlen_nonneg p.1). pose proof (zsum_lens_nonneg p.1). pose proof (sky_psums _ _ _ Hsky) as [_ EI'].
      pose proof (forZ_blocks (fun k r => let* v := rd connI (1 + k) in wrc r (N pre + 1 + k) (v + M pre)) (fun q => iost (N info) (lens (css pre ++ q))) (zlen p.1) p.1 eq_refl) as HB.
      cbv beta in HB. rewrite app_nil_r in HB. rewrite HB.
      2:{ intros q c q' Eq. assert (Hql : zlen p.1 = zlen q + 1 + zlen q') by (rewrite Eq, zlen_app, zlen_cons; lia). pose proof (zlen_nonneg q). pose proof (zlen_nonneg q').
          assert (Hv : connI @ (1 + zlen q) = Some (zsum (lens q) + (1 + zlen c.2))).
          { rewrite EI'. unfold psums. rewrite zlook_fmap, zlook_seqZ by (rewrite lens_len; lia). cbn. f_equal. rewrite Eq. replace (q ++ c :: q') with ((q ++ [c]) ++ q') by (by rewrite <- app_assoc). rewrite lens_app, take_app_alt.
            - rewrite lens_snoc, zsum_app. change (zsum [?x]) with (x + 0). lia.
            - assert (HL : zlen (lens (q ++ [c])) = 1 + zlen q) by (rewrite lens_len, zlen_app; change (zlen [c]) with 1; lia). unfold zlen at 1 in HL. lia. }
          rewrite (rd_ok _ _ _ Hv). cbn [bind]. rewrite app_assoc, lens_snoc. apply iost_wr; [rewrite lens_len, zlen_app; unfold N in *; lia|rewrite lens_len, zlen_app; unfold N; lia|]. rewrite lens_app, zsum_app. unfold M. lia. }
      cbn [bind]. assert (HZ : zlen (concat (pk <$> css pre)) = M pre) by apply conn_len.
      assert (HC0 : zlen (concat (pk <$> css pre)) + zsum (lens p.1) <= M info) by (rewrite HZ; exact HM'). unfold ost. pose proof (copyCells_ok p.1 conn connI (nn pre) (M info) (concat (pk <$> css pre)) Hsky Hsep HC0) as HC. rewrite HZ in *. rewrite HC. cbn [bind].
      assert (He : connI @ zlen p.1 = Some (zsum (lens p.1))). { rewrite EI', <- (lens_len p.1). apply psums_end. }
      rewrite (rd_ok _ _ _ He). cbn [bind]. destruct Hn as (x & Ex & _ & _ & _ & Hnt). unfold getNumberOfNodes. rewrite Ex. cbn [bind]. unfold st. rewrite N_snoc, M_snoc, nn_snoc, Hnt.
      assert (Ecs : css (pre ++ [p]) = css pre ++ (shift (nn pre) <$> p.1)). { destruct p as [cs nb]. unfold css. rewrite side_snoc. done. }
      f_equal. apply f_equal2; [|done]. apply f_equal2; [|lia]. apply f_equal2; [|lia]. apply f_equal2; [|lia]. apply f_equal2.
      - unfold ost. rewrite Ecs, (fmap_app pk), concat_app, zlen_app, !conn_len. assert (Hrl : lens (shift (nn pre) <$> p.1) = lens p.1) by apply rename_len. rewrite Hrl. f_equal. f_equal. unfold M. lia.
      - rewrite Ecs. unfold iost. rewrite !lens_app. unfold shift. rewrite rename_len. done. }
  unfold st. cbn [bind]. rewrite ost_end by (symmetry; apply conn_len). rewrite initialised_ok. cbn [bind]. assert (N info = zlen (lens (css info))) as -> by (symmetry; apply lens_len). rewrite iost_end, initialised_ok. cbn [bind].
  unfold setConnectivity. assert (Hsk : skyline (pk <$> css info) (concat (pk <$> css info)) (psums (lens (css info)))) by apply skyline_psums.
  rewrite (types_ok (css info)) by done. cbn [bind]. eexists. split; [reflexivity|]. split; [eexists _, _; done|]. split; [by apply typed_types|done].
Qed.
End LL.
