From Coq Require Import QArith ZifyBool ZifyNat Sorted.
From stdpp Require Import gmap.
From Verif Require Import CellModel Base DataArray ArrLib FillLib IndexSpec IndexModel IndexProofs IndexProofs2 IndexProofs4 IndexProofs3 IndexProofs6 SkySpec SkyModel SkyProofs SkyProofs4 CellTable CellProofs5 DsProofs6 GlModel GlProofs2 UmModel UmSpec UmProofs UmProofs2 UmProofs3 UmProofs4 UmProofs8 UmProofs9 UmProofs10 MgSpec MgModel MgProofs MgProofs4 GtModel GtSpec GtSpec2 GtProofs GtProofs2 GtProofs4 GtProofs5 GtProofs6 GtProofs8.
Local Open Scope Z_scope.

(** * Coordinates *)
Lemma merge_coords ms ms' : um_coords <$> ms = um_coords <$> ms' -> MergeNodesArray ms = MergeNodesArray ms'.
Proof.
  intros E. destruct ms as [|m0 r], ms' as [|m0' r']; try discriminate; [done|]. rewrite !fmap_cons in E. injection E as E0 Er. unfold MergeNodesArray. rewrite E0. destruct (um_coords m0') as [d0|]; [|done]. destruct (negb (da_alloc d0)); [done|]. cbn [ifthrow]. f_equal.
  generalize [Some d0]. revert r' Er. induction r as [|m r IH]; intros [|m' r'] Er s; try discriminate; [done|]. rewrite !fmap_cons in Er. injection Er as E1 Er. cbn [foldM]. rewrite E1. destruct (um_coords m') as [d|]; [|done]. destruct (negb (da_alloc d)); [done|]. cbn [ifthrow]. destruct (negb (da_nc d =? da_nc d0)); [done|]. cbn [ifthrow bind]. by apply IH.
Qed.
Definition valsOf (d : option (da Q)) : list Q := match d with Some a => da_vals a | None => [] end.
Lemma merged_array sd (ds : list (option (da Q))) (nbs : list Z) : ds <> [] -> Forall2 (fun d nb => nodes_in (nodes_only d) sd nb) ds nbs ->
  MergeNodesArray (nodes_only <$> ds) = Ok (DA true sd (Some <$> concat (valsOf <$> ds))).
Proof.
  intros Hne HF. set (mk := fun d : option (da Q) => UM 0 d (Some []) (Some [0]) []).
  assert (E : MergeNodesArray (nodes_only <$> ds) = MergeNodesArray (mk <$> ds)). { apply merge_coords. rewrite <- !list_fmap_compose. done. }
  rewrite E. assert (HF2 : Forall2 (full 0 sd) (mk <$> ds) ((fun nb => ([] : list cell, nb)) <$> nbs)).
  { clear E Hne. induction HF as [|d nb ds nbs Hd HF IH]; [constructor|]. rewrite !fmap_cons. constructor; [|done]. split; [|split; [|split; [done|]]].
    - exists [], [0]. split; [done|]. split; [done|]. exact (skyline_psums (@nil (list Z))).
    - exact Hd.
    - intros c v Hc. by apply elem_of_nil in Hc. }
  destruct ds as [|d ds]; [done|]. rewrite fmap_cons in *. rewrite (nodesArray_ok 0 sd _ _ _ HF2). rewrite <- fmap_cons, <- list_fmap_compose. done.
Qed.

(** * The cells one after the other *)
Lemma concat_shift f o cs : (forall c v, c ∈ cs -> v ∈ c.2 -> f v = if 0 <=? v then v + o else v) -> f <$> concat (snd <$> cs) = concat (snd <$> (shift o <$> cs)).
Proof.
  intros H. induction cs as [|c r IH]; [done|]. rewrite !fmap_cons. cbn [concat]. rewrite fmap_app, IH by (intros d v Hd; apply H; by right). f_equal. unfold shift, rename. cbn [snd]. apply list_fmap_ext. intros i v Hv. apply (H c); [left|]. by eapply elem_of_list_lookup_2.
Qed.
Lemma side_in info o c : c ∈ side_by_side o info -> exists p c' o', p ∈ info /\ c' ∈ p.1 /\ c = shift o' c'.
Proof.
  revert o. induction info as [|[cs nb] r IH]; intros o Hc; cbn [side_by_side] in Hc; [by apply elem_of_nil in Hc|]. apply elem_of_app in Hc as [Hc|Hc].
  - apply elem_of_list_fmap in Hc as (c' & -> & Hc'). exists (cs, nb), c', o. split; [left|done].
  - destruct (IH _ Hc) as (p & c' & o' & Hp & H1 & H2). exists p, c', o'. split; [by right|done].
Qed.
Lemma shift_len o c : zlen (shift o c).2 = zlen c.2. Proof. unfold shift, rename. cbn [snd]. by rewrite zlen_fmap. Qed.
Lemma side_len info o : zlen (side_by_side o info) = zlen (concat (fst <$> info)).
Proof. revert o. induction info as [|[cs nb] r IH]; intros o; [done|]. cbn [side_by_side]. rewrite fmap_cons. cbn [concat fst]. rewrite !zlen_app, zlen_fmap, IH. done. Qed.
Lemma side_lens info o : zlen <$> (snd <$> side_by_side o info) = concat ((fun p : list cell * Z => zlen <$> (snd <$> p.1)) <$> info).
Proof.
  revert o. induction info as [|[cs nb] r IH]; intros o; [done|]. cbn [side_by_side]. rewrite !fmap_cons, !fmap_app, IH. cbn [concat fst]. f_equal. induction cs as [|c cs IHc]; [done|]. rewrite !fmap_cons, IHc. f_equal. apply (shift_len o c).
Qed.
Definition flat (info : list (list cell * Z)) : list Z := concat (snd <$> side_by_side 0 info).
Lemma flat_snoc info p : flat (info ++ [p]) = flat info ++ concat (snd <$> (shift (zsum (snd <$> info)) <$> p.1)).
Proof. unfold flat. destruct p as [cs nb]. rewrite side_snoc, fmap_app, concat_app. rewrite Z.add_0_l. done. Qed.
Lemma flat_room pre post : zlen (flat pre) <= zlen (flat (pre ++ post)).
Proof. unfold flat. destruct (side_app pre post 0) as [cs' ->]. rewrite fmap_app, concat_app, zlen_app. pose proof (zlen_nonneg (concat (snd <$> cs'))). lia. Qed.
Lemma zsum_snoc l x : zsum (l ++ [x]) = zsum l + x. Proof. rewrite zsum_app. change (zsum [x]) with (x + 0). lia. Qed.

Lemma zsum_snd_snoc (l : list (list cell * Z)) p : zsum (snd <$> (l ++ [p])) = zsum (snd <$> l) + p.2. Proof. rewrite fmap_app. apply zsum_snoc. Qed.

(** * Static *)
Definition s_full (k : cm) (sd : Z) (m : sgt) (p : list cell * Z) : Prop := sg_cm m = k /\ s_holds m p.1 /\ nodes_in (nodes_only (sg_coords m)) sd p.2 /\ no_negative p.1.
Lemma F2_coords {X} (R : X -> list cell * Z -> Prop) (co : X -> option (da Q)) sd ms info : (forall m p, R m p -> nodes_in (nodes_only (co m)) sd p.2) -> Forall2 R ms info -> Forall2 (fun d nb => nodes_in (nodes_only d) sd nb) (co <$> ms) (snd <$> info).
Proof. intros HR H. induction H as [|m p ms info Hm H IH]; [constructor|]. rewrite !fmap_cons. constructor; [by apply HR|done]. Qed.
Lemma nodes_num d sd nb : nodes_in (nodes_only d) sd nb -> nodesOfArr d = Ok nb.
Proof. intros (a & E & _ & _ & _ & <-). cbn in E. rewrite E. done. Qed.
Lemma s_mergeLL k sd ms info : ms <> [] -> Forall2 (s_full k sd) ms info ->
  S_Merge1SGTUMeshesLL ms = Ok (SG k (Some (DA true sd (concat (valsOf <$> (sg_coords <$> ms))))) (Some (flat info))) /\
  s_holds (SG k (Some (DA true sd (concat (valsOf <$> (sg_coords <$> ms))))) (Some (flat info))) (side_by_side 0 info).
Proof.
  intros Hne HF. destruct HF as [|m0 p0 rest inf H0 HF]; [done|]. set (ms := m0 :: rest). set (info := p0 :: inf). assert (HA : Forall2 (s_full k sd) ms info) by (by constructor). pose proof H0 as (Ek & Hh0 & Hn0 & Hs0).
  assert (Hlen : forall c, c ∈ side_by_side 0 info -> c.1 = cm_type k /\ zlen c.2 = cm_nbpts k).
  { intros c Hc. destruct (side_in _ _ _ Hc) as (p & c' & o & Hp & Hc' & ->). apply elem_of_list_lookup in Hp as [i Hi]. destruct (Forall2_lookup_r _ _ _ _ _ HA Hi) as (m & _ & (Em & (_ & _ & Hm & _) & _)). rewrite Em in Hm. rewrite shift_len. apply (Hm c' Hc'). }
  assert (HT : zlen (flat info) = zlen (concat (fst <$> info)) * cm_nbpts k). { unfold flat. rewrite (concat_same _ (cm_nbpts k)) by (intros c Hc; by apply Hlen). by rewrite side_len. }
  split; [|split; [by rewrite <- Ek; apply Hh0|split; [rewrite <- Ek; apply Hh0|split; [exact Hlen|done]]]].
  unfold S_Merge1SGTUMeshesLL. fold ms. unfold ms at 1. rewrite (s_num m0 _ Hh0). cbn [bind]. rewrite (s_perCell m0 _ Hh0). cbn [bind].
  assert (E1 : foldM (fun n m => throw_if negb (cm_type (sg_cm m0) =? cm_type (sg_cm m)) >>> let* n' := S_getNumberOfCells m in Ok (n + n')) rest (zlen p0.1) = Ok (zlen (concat (fst <$> info)))).
  { pose (st := fun pre : list (list cell * Z) => zlen (concat (fst <$> (p0 :: pre)))). replace (zlen p0.1) with (st []). 2:{ unfold st. rewrite fmap_cons. cbn [concat]. by rewrite app_nil_r. } apply (foldM_blocks _ (s_full k sd) st rest inf HF). intros pre x b post _ (Ex & Hx & _). rewrite Ek, Ex, Z.eqb_refl. cbn [negb ifthrow]. rewrite (s_num x _ Hx). cbn [bind]. unfold st. rewrite app_comm_cons, fmap_app, concat_app, zlen_app. change (fst <$> [b]) with [b.1]. cbn [concat]. by rewrite app_nil_r. }
  rewrite E1. cbn [bind]. change ((fun m => UM 0 (sg_coords m) None None []) <$> ms) with ((fun m => nodes_only (sg_coords m)) <$> ms). replace ((fun m => nodes_only (sg_coords m)) <$> ms) with (nodes_only <$> (sg_coords <$> ms)) by (rewrite <- list_fmap_compose; done).
  rewrite (merged_array sd (sg_coords <$> ms) (snd <$> info)); [|discriminate|apply (F2_coords (s_full k sd)); [intros m p Hp; apply Hp|done]]. cbn [bind]. unfold UmModel.written. cbn [da_vals da_alloc da_nc]. rewrite initialised_ok. cbn [bind].
  rewrite Ek, <- HT. rewrite alloc1 by apply zlen_nonneg. cbn [bind].
  pose (st2 := fun pre : list (list cell * Z) => ((Some <$> flat pre) ++ malloc Z (zlen (flat info) - zlen (flat pre)), zlen (flat pre), zsum (snd <$> pre))).
  assert (Est : (malloc Z (zlen (flat info)), 0, 0) = st2 []). { unfold st2. change (flat []) with (@nil Z). change (zlen (@nil Z)) with 0. rewrite Z.sub_0_r. done. }
  rewrite Est. rewrite (foldM_blocks _ (s_full k sd) st2 ms info HA).
  - cbn [bind]. unfold st2. rewrite Z.sub_diag. change (malloc Z 0) with (@nil (option Z)). rewrite app_nil_r, initialised_ok. done.
  - intros pre m p post E (Em & Hm & Hn & Hs). unfold st2. unfold S_getNodalConnectivityLength, S_unchecked. rewrite (s_conn m _ Hm). cbn [bind]. rewrite (nodes_num _ _ _ Hn). cbn [bind].
    assert (Esh : (fun v => v + zsum (snd <$> pre)) <$> concat (snd <$> p.1) = concat (snd <$> (shift (zsum (snd <$> pre)) <$> p.1))). { apply concat_shift. intros c v Hc Hv. pose proof (Hs c v Hc Hv). by replace (0 <=? v) with true by lia. }
    assert (El : zlen (concat (snd <$> p.1)) = zlen (concat (snd <$> (shift (zsum (snd <$> pre)) <$> p.1)))) by (rewrite <- Esh, zlen_fmap; done).
    pose proof (flat_room (pre ++ [p]) post) as Hr. rewrite <- app_assoc in Hr. cbn [app] in Hr. rewrite <- E, flat_snoc, zlen_app in Hr. rewrite Esh, El. rewrite copyc_fill; [|lia|apply zlen_nonneg|lia|lia|done]. cbn [bind]. rewrite flat_snoc, zlen_app, zsum_snd_snoc.
    f_equal. f_equal. f_equal. f_equal; [|f_equal; lia]. do 2 f_equal. unfold sub. rewrite Z.sub_0_r. cbn [Z.to_nat drop]. apply firstn_all2. unfold zlen. lia.
Qed.
Lemma empty_nodes sd : 0 <= sd -> nodes_in (nodes_only (Some (DA true sd []))) sd 0.
Proof. intros H. exists (DA true sd []). split; [done|]. split; [done|]. split; [split; [done|]; exists 0; split; [done|done]|]. split; [done|]. unfold da_nt. cbn [da_nc da_vals]. destruct (sd =? 0) eqn:E; [done|]. change (zlen (@nil Q)) with 0. apply Z.quot_0_l || apply Z.div_0_l; lia. Qed.
Lemma first_dim {X} (co : X -> option (da Q)) sd ms (info : list (list cell * Z)) : Forall2 (fun m (p : list cell * Z) => nodes_in (nodes_only (co m)) sd p.2 \/ co m = None /\ p.2 = 0) ms info -> (exists m, m ∈ ms /\ is_Some (co m)) -> firstSpaceDim (co <$> ms) = Ok sd /\ 0 <= sd.
Proof.
  intros H (m & Hm & Hs). unfold firstSpaceDim. induction H as [|x p ms info Hx H IH]; [by apply elem_of_nil in Hm|]. rewrite fmap_cons. cbn [omap list_omap]. unfold id at 1. destruct Hx as [Hx|[Hx _]].
  - destruct (nodes_len _ _ _ Hx) as (_ & _ & L & _). destruct Hx as (d & E & _ & _ & Hn & _). cbn in E. rewrite E. split; [by rewrite Hn|done].
  - rewrite Hx. apply IH. apply elem_of_cons in Hm as [->|Hm]; [|done]. rewrite Hx in Hs. by destruct Hs.
Qed.
Lemma no_dim {X} (co : X -> option (da Q)) (ms : list X) : (forall m, m ∈ ms -> co m = None) -> firstSpaceDim (co <$> ms) = Throw.
Proof. intros H. unfold firstSpaceDim. assert (E : omap id (co <$> ms) = []); [|by rewrite E]. induction ms as [|m r IH]; [done|]. rewrite fmap_cons. cbn [omap list_omap]. unfold id at 1. rewrite (H m) by left. apply IH. intros x Hx. apply H. by right. Qed.
Lemma nodes_default o sd nb : 0 <= sd -> nodes_in (nodes_only o) sd nb \/ o = None /\ nb = 0 -> nodes_in (nodes_only (Some (default (DA true sd []) o))) sd nb.
Proof. intros Hsd [H|[-> ->]]; [|by apply empty_nodes]. pose proof H as (d & E & _). cbn in E. subst o. exact H. Qed.
(** The nodes of the merged mesh. *)
Lemma merged_nodes sd (ds : list (option (da Q))) (info : list (list cell * Z)) : 0 <= sd -> Forall2 (fun d (p : list cell * Z) => nodes_in (nodes_only d) sd p.2 \/ d = None /\ p.2 = 0) ds info ->
  let D := Some (DA true sd (concat (valsOf <$> ((fun d => Some (default (DA true sd []) d)) <$> ds)))) in
  nodes_in (nodes_only D) sd (zsum (snd <$> info)) /\ forall i d j q, ds @ i = Some d -> point (nodes_only d) j q -> point (nodes_only D) (nodes_before info i + j) q.
Proof.
  intros Hsd HF D. set (ds' := (fun d => Some (default (DA true sd []) d)) <$> ds) in *. assert (HF' : Forall2 (fun m (p : list cell * Z) => nodes_in m sd p.2) (nodes_only <$> ds') info).
  { unfold ds'. clear ds' D. induction HF as [|d p ds info Hd HF IH]; [constructor|]. rewrite !fmap_cons. constructor; [by apply nodes_default|done]. }
  assert (ED : um_coords (nodes_only D) = Some (joined sd (nodes_only <$> ds'))). { unfold D, joined. cbn. rewrite <- list_fmap_compose. done. }
  split; [exact (joined_nodes sd _ _ _ Hsd HF' ED)|]. intros i d j q Hi Hp. apply (joined_points sd (nodes_only <$> ds') info i (nodes_only (Some (default (DA true sd []) d))) j q (nodes_only D) HF' ED).
  - unfold ds'. rewrite !zlook_fmap, Hi. done.
  - destruct Hp as (a & E & Hr). cbn in E. subst d. exists a. split; [done|exact Hr].
Qed.
Lemma s_default m sd k p : GetCellModel (cm_type k) = Ok k -> cm_dyn k = false -> 0 <= sd -> s_brings k sd m p -> no_negative p.1 -> s_full k sd (S_buildSetInstanceFromThis m sd) p.
Proof.
  intros Hk Hd Hsd (Ek & Hc & Hn) Hneg. split; [done|]. split; [|split; [by apply nodes_default|done]]. destruct Hc as [(H1 & H2 & H3 & H4)|[H4 ->]].
  - split; [done|]. split; [done|]. split; [done|]. unfold S_buildSetInstanceFromThis. cbn [sg_conn]. by rewrite H4.
  - unfold S_buildSetInstanceFromThis. split; cbn [sg_cm]; rewrite Ek; [done|]. split; [done|]. split; [intros c Hc; by apply elem_of_nil in Hc|]. cbn [sg_conn]. by rewrite H4.
Qed.
Lemma F2_weak {X Y} (R R' : X -> Y -> Prop) l l' : (forall x y, R x y -> R' x y) -> Forall2 R l l' -> Forall2 R' l l'.
Proof. intros H HF. induction HF; constructor; auto. Qed.
Lemma F2_fmap_l {X X' Y} (f : X -> X') (R : X' -> Y -> Prop) l l' : Forall2 (fun x y => R (f x) y) l l' -> Forall2 R (f <$> l) l'.
Proof. intros HF. induction HF; [constructor|]. rewrite fmap_cons. by constructor. Qed.
Lemma s_merge k sd ms info : GetCellModel (cm_type k) = Ok k -> cm_dyn k = false -> Forall2 (fun m p => s_brings k sd m p /\ no_negative p.1) ms info -> (exists m, m ∈ ms /\ is_Some (sg_coords m)) ->
  exists m', S_Merge1SGTUMeshes ms = Ok m' /\ sg_cm m' = k /\ s_holds m' (side_by_side 0 info) /\ nodes_in (nodes_only (sg_coords m')) sd (zsum (snd <$> info)) /\
    forall i m j q, ms @ i = Some m -> point (nodes_only (sg_coords m)) j q -> point (nodes_only (sg_coords m')) (nodes_before info i + j) q.
Proof.
  intros Hk Hd HF Hex. destruct (first_dim sg_coords sd ms info) as (Ed & Hsd); [eapply F2_weak; [|exact HF]; intros m p Hp; apply Hp|done|].
  assert (HF' : Forall2 (s_full k sd) ((fun m => S_buildSetInstanceFromThis m sd) <$> ms) info). { apply F2_fmap_l. eapply F2_weak; [|exact HF]. intros m p (Hp & Hneg). by apply s_default. }
  assert (Hty : forall m, m ∈ ms -> sg_cm m = k). { intros m Hm. apply elem_of_list_lookup in Hm as [i Hi]. destruct (Forall2_lookup_l _ _ _ _ _ HF Hi) as (p & _ & (E & _) & _). done. }
  destruct ms as [|m0 r]; [destruct Hex as (m & Hm & _); by apply elem_of_nil in Hm|]. unfold S_Merge1SGTUMeshes.
  assert (Hall : forallb (fun m => cm_type (sg_cm m) =? cm_type (sg_cm m0)) (m0 :: r) = true). { apply forallb_forall. intros x Hx. apply elem_of_list_In in Hx. rewrite (Hty x Hx), (Hty m0) by left. apply Z.eqb_refl. }
  rewrite Hall. cbn [negb ifthrow]. rewrite Ed. cbn [bind]. assert (Hne : (fun m => S_buildSetInstanceFromThis m sd) <$> (m0 :: r) <> []) by discriminate. destruct (s_mergeLL k sd _ info Hne HF') as (-> & Hh). eexists. split; [done|]. split; [done|]. split; [exact Hh|]. cbn [sg_coords].
  assert (Eq : sg_coords <$> ((fun m => S_buildSetInstanceFromThis m sd) <$> (m0 :: r)) = (fun d => Some (default (DA true sd []) d)) <$> (sg_coords <$> (m0 :: r))) by (rewrite <- !list_fmap_compose; done). rewrite Eq.
  destruct (merged_nodes sd (sg_coords <$> (m0 :: r)) info Hsd) as (N1 & N2); [apply F2_fmap_l; eapply F2_weak; [|exact HF]; intros m p Hp; apply Hp|]. split; [exact N1|]. intros i m j q Hi. apply N2. rewrite zlook_fmap, Hi. done.
Qed.
Lemma s_merge_throw ms : ms = [] \/ (exists m m', m ∈ ms /\ m' ∈ ms /\ cm_type (sg_cm m) <> cm_type (sg_cm m')) \/ (forall m, m ∈ ms -> sg_coords m = None) -> S_Merge1SGTUMeshes ms = Throw.
Proof.
  destruct ms as [|m0 r]; [done|]. intros H. unfold S_Merge1SGTUMeshes. destruct (forallb _ _) eqn:E; [|done]. cbn [negb ifthrow]. destruct H as [H|[(m & m' & Hm & Hm' & Hne)|H]]; [done| |].
  - exfalso. assert (Ha : forall x, x ∈ m0 :: r -> cm_type (sg_cm x) = cm_type (sg_cm m0)). { intros x Hx. assert (E' := proj1 (forallb_forall _ _) E x (proj1 (elem_of_list_In _ _) Hx)). cbn in E'. lia. } apply Hne. rewrite (Ha m Hm), (Ha m' Hm'). done.
  - rewrite no_dim by done. done.
Qed.
