From Coq Require Import QArith ZifyBool ZifyNat Sorted.
From stdpp Require Import gmap.
From Verif Require Import CellModel Base DataArray ArrLib FillLib IndexSpec IndexModel IndexProofs IndexProofs2 IndexProofs4 IndexProofs3 IndexProofs6 SkySpec SkyModel SkyProofs SkyProofs4 CellTable CellProofs5 DsProofs6 GlModel GlProofs2 UmModel UmSpec UmProofs UmProofs2 UmProofs3 UmProofs4 UmProofs8 UmProofs9 UmProofs10 MgSpec MgModel MgProofs MgProofs4 GtModel GtSpec GtSpec2 GtProofs GtProofs2 GtProofs4 GtProofs5 GtProofs6 GtProofs8 GtProofs10.
Local Open Scope Z_scope.

(** The first node of each mesh. *)
Fixpoint offs_from (o : Z) (nbs : list Z) : list Z := match nbs with [] => [] | n :: r => o :: offs_from (o + n) r end.
Lemma offs_len o nbs : zlen (offs_from o nbs) = zlen nbs. Proof. revert o. induction nbs as [|n r IH]; intros o; [done|]. cbn [offs_from]. rewrite !zlen_cons, IH. done. Qed.
Lemma offs_snoc o nbs n : offs_from o (nbs ++ [n]) = offs_from o nbs ++ [o + zsum nbs].
Proof. revert o. induction nbs as [|x r IH]; intros o; cbn [app offs_from]; [change (zsum []) with 0; by rewrite Z.add_0_r|]. rewrite IH. change (zsum (x :: r)) with (x + zsum r). cbn [app]. by rewrite Z.add_assoc. Qed.
Lemma offs_at o pre n post : offs_from o (pre ++ n :: post) @ zlen pre = Some (o + zsum pre).
Proof.
  revert o. induction pre as [|x r IH]; intros o; cbn [app offs_from]; [change (zsum []) with 0; rewrite Z.add_0_r; done|]. rewrite zlen_cons. pose proof (zlen_nonneg r). rewrite zlook_cons. replace (1 + zlen r =? 0) with false by lia. replace (1 + zlen r - 1) with (zlen r) by lia. rewrite IH. change (zsum (x :: r)) with (x + zsum r). f_equal. lia.
Qed.
Lemma foldr_sum (ls : list (list Z)) : foldr (fun l n => zlen l + n) 0 ls = zlen (concat ls).
Proof. induction ls as [|l r IH]; [done|]. cbn [foldr concat]. rewrite IH, zlen_app. done. Qed.
Lemma flat_len info : zlen (flat info) = zlen (concat ((fun p : list cell * Z => concat (snd <$> p.1)) <$> info)).
Proof.
  unfold flat. rewrite zlen_concat, side_lens. induction info as [|p r IH]; [done|]. rewrite !fmap_cons. cbn [concat]. rewrite zsum_app, zlen_app, IH, (zlen_concat (snd <$> p.1)). done.
Qed.
Lemma shifted_conn info : info <> [] -> (forall p, p ∈ info -> separators p.1) ->
  AggregateNodalConnAndShiftNodeIds ((fun p : list cell * Z => concat (snd <$> p.1)) <$> info) (offs_from 0 (snd <$> info)) = Ok (Some <$> flat info).
Proof.
  intros Hne Hs. unfold AggregateNodalConnAndShiftNodeIds. rewrite offs_len, !zlen_fmap, Z.eqb_refl. cbn [negb ifthrow]. replace (zlen info =? 0) with false by (destruct info; [done|]; rewrite zlen_cons; pose proof (zlen_nonneg info); lia). cbn [ifthrow]. rewrite foldr_sum, <- flat_len, alloc1 by apply zlen_nonneg. cbn [bind].
  pose (st := fun pre : list (list cell * Z) => ((Some <$> flat pre) ++ malloc Z (zlen (flat info) - zlen (flat pre)), zlen (flat pre), zlen pre)).
  assert (Est : (malloc Z (zlen (flat info)), 0, 0) = st []). { unfold st. change (flat []) with (@nil Z). change (zlen (@nil Z)) with 0. rewrite Z.sub_0_r. done. } rewrite Est.
  rewrite (foldM_blocks _ (fun c (p : list cell * Z) => c = concat (snd <$> p.1)) st _ info).
  - cbn [bind]. unfold st. rewrite Z.sub_diag. change (malloc Z 0) with (@nil (option Z)). by rewrite app_nil_r.
  - clear. induction info as [|p r IH]; [constructor|]. rewrite fmap_cons. by constructor.
  - intros pre c p post E ->. unfold st. assert (Ho : offs_from 0 (snd <$> info) @ zlen pre = Some (zsum (snd <$> pre))). { rewrite E, fmap_app, fmap_cons. rewrite <- (zlen_fmap snd pre). rewrite offs_at. by rewrite Z.add_0_l. } rewrite (rd_ok _ _ _ Ho). cbn [bind]. set (o := zsum (snd <$> pre)) in *. set (l := concat (snd <$> p.1)).
    assert (Esh : (fun v => if negb (v =? -1) then v + o else -1) <$> l = concat (snd <$> (shift o <$> p.1))).
    { apply concat_shift. intros c v Hc Hv. assert (Hps : separators p.1) by (apply Hs; rewrite E; apply elem_of_app; right; left). pose proof (Hps c v Hc Hv). destruct (Z.eqb_spec v (-1)) as [->|]; [done|]. cbn [negb]. by replace (0 <=? v) with true by lia. }
    pose proof (flat_room (pre ++ [p]) post) as Hr. rewrite <- app_assoc in Hr. cbn [app] in Hr. rewrite <- E, flat_snoc, zlen_app in Hr. fold o in Hr. assert (El : zlen (concat (snd <$> (shift o <$> p.1))) = zlen l) by (rewrite <- Esh, zlen_fmap; done).
    set (M := zlen (flat info) - zlen (flat pre)) in *. pose (f := fun v => if negb (v =? -1) then v + o else -1). pose (sti := fun q : list Z => (Some <$> (flat pre ++ (f <$> q))) ++ malloc Z (M - zlen q)).
    assert (Ei : (Some <$> flat pre) ++ malloc Z M = sti []). { unfold sti. change (f <$> []) with (@nil Z). rewrite app_nil_r. change (zlen (@nil Z)) with 0. rewrite Z.sub_0_r. done. } rewrite Ei.
    rewrite (forZ_blocks _ sti (zlen l) l eq_refl).
    + cbn [bind]. unfold sti. rewrite flat_snoc, zlen_app, zlen_app. fold o. change (f <$> l) with ((fun v => if negb (v =? -1) then v + o else -1) <$> l). rewrite Esh, El. change (zlen [p]) with 1. f_equal. f_equal. f_equal. f_equal. f_equal. unfold M. lia.
    + intros q v q' El'. assert (Hv : l @ zlen q = Some v) by (rewrite El', zlook_app_r by lia; rewrite Z.sub_diag; done). rewrite (rd_ok _ _ _ Hv). cbn [bind]. unfold sti. assert (zlen l = zlen q + (1 + zlen q')) as Hlq by (rewrite El', zlen_app, zlen_cons; done). pose proof (zlen_nonneg q'). rewrite wrc_fill; [|unfold M; lia|rewrite zlen_app, zlen_fmap; done]. f_equal. rewrite (fmap_app f), zlen_app. change (zlen [v]) with 1. change (f <$> [v]) with [f v]. rewrite <- app_assoc. f_equal. f_equal. lia.
Qed.

Definition d_full (k : cm) (sd : Z) (m : dgt) (p : list cell * Z) : Prop := dg_cm m = k /\ d_holds m p.1 /\ nodes_in (nodes_only (dg_coords m)) sd p.2 /\ separators p.1.
(** The packed copy of a mesh. *)
Definition d_blk (k : cm) (sd : Z) (m : dgt) (b : dgt * (list cell * Z)) : Prop :=
  dg_cm m = k /\ D_getNumberOfCells m = Ok (zlen b.2.1) /\ (exists x, D_copyWithNodalConnectivityPacked m = Ok (b.1, x)) /\ d_packed b.1 b.2.1 /\ dg_cm b.1 = k /\ nodesOfArr (dg_coords m) = Ok b.2.2.
Lemma d_blocks k sd ms info : Forall2 (d_full k sd) ms info -> exists bs, snd <$> bs = info /\ Forall2 (d_blk k sd) ms bs.
Proof.
  intros H. induction H as [|m p ms info Hm H IH]; [exists []; done|]. destruct IH as (bs & <- & Hbs). destruct Hm as (Ek & Hh & Hn & Hs). pose proof (nodes_num _ _ _ Hn) as En. destruct (d_pack m p.1 Hh) as (o & x & Ex & Ho & Hc1 & Hc2 & _). { destruct Hn as (d & E & _). cbn in E. congruence. }
  exists ((o, p) :: bs). split; [done|]. constructor; [|done]. split; [done|]. split; [by destruct (d_data m p.1 Hh) as (? & ? & _ & _ & _ & _ & En2 & _)|]. split; [by exists x|]. split; [done|]. split; [cbn; congruence|done].
Qed.
Lemma d_mergeLL k sd ms info : ms <> [] -> Forall2 (d_full k sd) ms info -> exists connI,
  D_Merge1DGTUMeshesLL ms = Ok (DG k (Some (DA true sd (concat (valsOf <$> (dg_coords <$> ms))))) (Some (flat info)) (Some connI)) /\
  d_packed (DG k (Some (DA true sd (concat (valsOf <$> (dg_coords <$> ms))))) (Some (flat info)) (Some connI)) (side_by_side 0 info).
Proof.
  intros Hne HA. destruct (d_blocks k sd ms info HA) as (bs & Ebs & HB). destruct HB as [|m0 b0 rest br H0 HB]; [done|]. set (ms := m0 :: rest) in *. set (bs := b0 :: br) in *. assert (HBA : Forall2 (d_blk k sd) ms bs) by (by constructor). pose proof H0 as (Ek & En0 & (x0 & Ex0) & Hp0 & _ & Enb0).
  assert (Hsep : forall p, p ∈ info -> separators p.1). { intros p Hp. apply elem_of_list_lookup in Hp as [i Hi]. destruct (Forall2_lookup_r _ _ _ _ _ HA Hi) as (m & _ & (_ & _ & _ & Hs)). exact Hs. }
  assert (Hgc : GetCellModel (cm_type k) = Ok k /\ cm_dyn k = true). { rewrite <- Ebs in HA. inversion HA as [|? ? ? ? (E & (G1 & G2 & _) & _)]. subst. done. }
  assert (Hty : forall c, c ∈ side_by_side 0 info -> c.1 = cm_type k).
  { intros c Hc. destruct (side_in _ _ _ Hc) as (p & c' & o & Hp & Hc' & ->). apply elem_of_list_lookup in Hp as [i Hi]. destruct (Forall2_lookup_r _ _ _ _ _ HA Hi) as (m & _ & (Em & (_ & _ & Hm & _) & _)). rewrite Em in Hm. apply (Hm c' Hc'). }
  assert (Hob : forall b, b ∈ bs -> d_packed b.1 b.2.1). { intros b Hb. apply elem_of_list_lookup in Hb as [i Hi]. destruct (Forall2_lookup_r _ _ _ _ _ HBA Hi) as (m & _ & (_ & _ & _ & Hp & _)). done. }
  assert (Econn : omap dg_conn (fst <$> bs) = (fun p : list cell * Z => concat (snd <$> p.1)) <$> info).
  { rewrite <- Ebs. clear - Hob. induction bs as [|b r IH]; [done|]. rewrite !fmap_cons. cbn [omap list_omap]. destruct (Hob b ltac:(left)) as (_ & _ & _ & conn & connI & E1 & _ & (-> & _)). rewrite E1. f_equal. apply IH. intros b' Hb'. apply Hob. by right. }
  destruct (aggregateIndexes_ok ((fun o => vec <$> dg_connI o) <$> (fst <$> bs)) ((fun p : list cell * Z => zlen <$> (snd <$> p.1)) <$> info)) as (r & Er & Hr); [discriminate| |].
  { rewrite <- Ebs. clear - Hob. induction bs as [|b r IH]; [constructor|]. rewrite !fmap_cons. constructor; [|apply IH; intros b' Hb'; apply Hob; by right]. destruct (Hob b ltac:(left)) as (_ & _ & _ & conn & connI & _ & E2 & (_ & Hps)). rewrite E2. exists (vec connI). done. }
  exists r. split; [|destruct Hgc as (G1 & G2); split; [exact G1|]; split; [exact G2|]; split; [exact Hty|]; exists (flat info), r; split; [done|]; split; [done|]; split; [done|]; by rewrite side_lens].
  unfold D_Merge1DGTUMeshesLL. fold ms. unfold ms at 1. rewrite En0. cbn [bind]. rewrite Ex0. cbn [bind]. rewrite Enb0. cbn [bind].
  pose (lastnb := fun pre : list (dgt * (list cell * Z)) => default 0 ((fun b : dgt * (list cell * Z) => b.2.2) <$> last (b0 :: pre))).
  pose (st := fun pre : list (dgt * (list cell * Z)) => (fst <$> (b0 :: pre), offs_from 0 (snd <$> (snd <$> (b0 :: pre))), zsum (snd <$> (snd <$> (b0 :: pre))) - lastnb pre, lastnb pre)).
  assert (Est : ([b0.1], [0], 0, b0.2.2) = st []). { unfold st, lastnb. change (snd <$> (snd <$> [b0])) with [b0.2.2]. cbn [last default fmap option_fmap option_map offs_from]. change (zsum [b0.2.2]) with (b0.2.2 + 0). rewrite Z.add_0_r. f_equal. f_equal. unfold default, id, from_option. lia. } rewrite Est.
  rewrite (foldM_blocks _ (d_blk k sd) st rest br HB).
  - cbn [bind]. unfold st. fold bs. rewrite Ebs. change ((fun m => UM 0 (dg_coords m) None None []) <$> ms) with ((fun m => nodes_only (dg_coords m)) <$> ms). replace ((fun m => nodes_only (dg_coords m)) <$> ms) with (nodes_only <$> (dg_coords <$> ms)) by (rewrite <- list_fmap_compose; done).
    rewrite (merged_array sd (dg_coords <$> ms) (snd <$> info)); [|discriminate|apply (F2_coords (d_full k sd)); [intros m p Hp; apply Hp|done]]. cbn [bind]. unfold UmModel.written. cbn [da_vals da_alloc da_nc]. rewrite initialised_ok. cbn [bind].
    rewrite Econn, shifted_conn; [|rewrite <- Ebs; discriminate|done]. cbn [bind]. rewrite initialised_ok. cbn [bind]. rewrite Er. cbn [bind]. rewrite initialised_ok. cbn [bind]. by rewrite Ek.
  - intros pre m b post _ (Em & En & (x & Ex) & Hp & _ & Enb). unfold st. cbv beta iota. rewrite Ek, Em, Z.eqb_refl. cbn [negb ifthrow]. rewrite Ex. cbn [bind]. rewrite En. cbn [bind]. rewrite Enb. cbn [bind]. rewrite app_comm_cons, !fmap_app. change (snd <$> (snd <$> [b])) with [b.2.2]. change (fst <$> [b]) with [b.1]. rewrite offs_snoc, zsum_snoc. unfold lastnb. rewrite app_comm_cons, last_snoc. cbn [default fmap option_fmap option_map]. f_equal. f_equal. unfold default, id, from_option. f_equal; [|lia]. f_equal. f_equal. f_equal. destruct (last (b0 :: pre)); cbn; lia.
Qed.
Lemma d_default m sd k p : GetCellModel (cm_type k) = Ok k -> cm_dyn k = true -> 0 <= sd -> d_brings k sd m p -> separators p.1 -> d_full k sd (D_buildSetInstanceFromThis m sd) p.
Proof.
  intros Hk Hd Hsd (Ek & Hc & Hn) Hneg. split; [done|]. split; [|split; [by apply nodes_default|done]]. destruct Hc as [(H1 & H2 & H3 & conn & connI & f & E1 & E2 & Hr)|(E1 & E2 & ->)].
  - split; [done|]. split; [done|]. split; [done|]. exists conn, connI, f. unfold D_buildSetInstanceFromThis. cbn [dg_conn dg_connI]. by rewrite E1, E2.
  - unfold D_buildSetInstanceFromThis. split; cbn [dg_cm]; rewrite Ek; [done|]. split; [done|]. split; [intros c Hc; by apply elem_of_nil in Hc|]. exists [], [0], 0. cbn [dg_conn dg_connI]. rewrite E1, E2. split; [done|]. split; [done|]. split; [done|]. split; [intros i c Hi; by rewrite zlook_nil in Hi|]. done.
Qed.
Lemma d_merge k sd ms info : GetCellModel (cm_type k) = Ok k -> cm_dyn k = true -> Forall2 (fun m p => d_brings k sd m p /\ separators p.1) ms info -> (exists m, m ∈ ms /\ is_Some (dg_coords m)) ->
  exists m', D_Merge1DGTUMeshes ms = Ok m' /\ dg_cm m' = k /\ d_packed m' (side_by_side 0 info) /\ nodes_in (nodes_only (dg_coords m')) sd (zsum (snd <$> info)) /\
    forall i m j q, ms @ i = Some m -> point (nodes_only (dg_coords m)) j q -> point (nodes_only (dg_coords m')) (nodes_before info i + j) q.
Proof.
  intros Hk Hd HF Hex. destruct (first_dim dg_coords sd ms info) as (Ed & Hsd); [eapply F2_weak; [|exact HF]; intros m p Hp; apply Hp|done|].
  assert (HF' : Forall2 (d_full k sd) ((fun m => D_buildSetInstanceFromThis m sd) <$> ms) info). { apply F2_fmap_l. eapply F2_weak; [|exact HF]. intros m p (Hp & Hneg). by apply d_default. }
  assert (Hty : forall m, m ∈ ms -> dg_cm m = k). { intros m Hm. apply elem_of_list_lookup in Hm as [i Hi]. destruct (Forall2_lookup_l _ _ _ _ _ HF Hi) as (p & _ & (E & _) & _). done. }
  destruct ms as [|m0 r]; [destruct Hex as (m & Hm & _); by apply elem_of_nil in Hm|]. unfold D_Merge1DGTUMeshes.
  assert (Hall : forallb (fun m => cm_type (dg_cm m) =? cm_type (dg_cm m0)) (m0 :: r) = true). { apply forallb_forall. intros x Hx. apply elem_of_list_In in Hx. rewrite (Hty x Hx), (Hty m0) by left. apply Z.eqb_refl. }
  rewrite Hall. cbn [negb ifthrow]. rewrite Ed. cbn [bind]. assert (Hne : (fun m => D_buildSetInstanceFromThis m sd) <$> (m0 :: r) <> []) by discriminate. destruct (d_mergeLL k sd _ info Hne HF') as (connI & -> & Hh). eexists. split; [done|]. split; [done|]. split; [exact Hh|]. cbn [dg_coords].
  assert (Eq : dg_coords <$> ((fun m => D_buildSetInstanceFromThis m sd) <$> (m0 :: r)) = (fun d => Some (default (DA true sd []) d)) <$> (dg_coords <$> (m0 :: r))) by (rewrite <- !list_fmap_compose; done). rewrite Eq.
  destruct (merged_nodes sd (dg_coords <$> (m0 :: r)) info Hsd) as (N1 & N2); [apply F2_fmap_l; eapply F2_weak; [|exact HF]; intros m p Hp; apply Hp|]. split; [exact N1|]. intros i m j q Hi. apply N2. rewrite zlook_fmap, Hi. done.
Qed.
Lemma d_merge_throw ms : ms = [] \/ (exists m m', m ∈ ms /\ m' ∈ ms /\ cm_type (dg_cm m) <> cm_type (dg_cm m')) \/ (forall m, m ∈ ms -> dg_coords m = None) -> D_Merge1DGTUMeshes ms = Throw.
Proof.
  destruct ms as [|m0 r]; [done|]. intros H. unfold D_Merge1DGTUMeshes. destruct (forallb _ _) eqn:E; [|done]. cbn [negb ifthrow]. destruct H as [H|[(m & m' & Hm & Hm' & Hne)|H]]; [done| |].
  - exfalso. assert (Ha : forall x, x ∈ m0 :: r -> cm_type (dg_cm x) = cm_type (dg_cm m0)). { intros x Hx. assert (E' := proj1 (forallb_forall _ _) E x (proj1 (elem_of_list_In _ _) Hx)). cbn in E'. lia. } apply Hne. rewrite (Ha m Hm), (Ha m' Hm'). done.
  - rewrite no_dim by done. done.
Qed.
