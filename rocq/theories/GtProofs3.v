From Coq Require Import QArith ZifyBool ZifyNat.
From stdpp Require Import gmap.
From Verif Require Import CellModel Base DataArray ArrLib FillLib SearchSpec SearchModel SearchProofs IndexSpec IndexModel IndexProofs IndexProofs2 IndexProofs4 SkySpec SkyModel SkyProofs SkyProofs4 CellTable CellProofs5 DsProofs6 GlModel GlProofs2 UmModel UmSpec UmProofs UmProofs2 UmProofs3 UmProofs4 UmProofs8 UmProofs9 MgSpec GtModel GtSpec GtProofs GtProofs2.
Local Open Scope Z_scope.

(** * Numbering of the nodes *)
Lemma zset_mid {A} (P : list A) v R w : zset (P ++ v :: R) (zlen P) w = P ++ w :: R.
Proof.
  pose proof (zlen_nonneg P). pose proof (zlen_nonneg R). apply zlook_ext. intros k. rewrite zlook_zset by (rewrite !zlen_app, zlen_cons; lia). destruct (Z.eqb_spec k (zlen P)) as [->|Hk].
  - rewrite zlook_app_r by lia. rewrite Z.sub_diag. done.
  - destruct (decide (k < zlen P)); [rewrite !zlook_app_l by lia; done|]. rewrite !(zlook_app_r P) by lia. rewrite !zlook_cons. replace (k - zlen P =? 0) with false by lia. done.
Qed.
Lemma inplace (g : Z -> res Z) (body : Z -> list Z -> res (list Z)) l : (forall c i v, c @ i = Some v -> body i c = let* w := g v in Ok (zset c i w)) -> forZ 0 (zlen l) body l = mapR g l.
Proof.
  intros Hb. assert (G : forall ns P, forZ (zlen P) (zlen P + zlen ns) body (P ++ ns) = let* t := mapR g ns in Ok (P ++ t)).
  { induction ns as [|v ns IH]; intros P; [cbn [mapR bind]; apply forZ_empty; rewrite zlen_nil; lia|]. rewrite zlen_cons. pose proof (zlen_nonneg ns). rewrite forZ_step by lia. rewrite (Hb _ _ v) by (rewrite zlook_app_r by lia; rewrite Z.sub_diag; done).
    cbn [mapR]. destruct (g v) as [w| | |]; cbn [bind]; try done. rewrite zset_mid. specialize (IH (P ++ [w])). rewrite zlen_app in IH. change (zlen [w]) with 1 in IH. rewrite <- app_assoc in IH. cbn [app] in IH. replace (zlen P + (1 + zlen ns)) with (zlen P + 1 + zlen ns) by lia. rewrite IH.
    destruct (mapR g ns); cbn [bind]; try done. rewrite <- app_assoc. done. }
  specialize (G l []). cbn [app] in G. change (zlen (@nil Z)) with 0 in G. rewrite Z.add_0_l in G. rewrite G. destruct (mapR g l); done.
Qed.
Lemma zset_same {A} (l : list A) i v : l @ i = Some v -> zset l i v = l.
Proof. intros H. apply zlook_Some_lt in H as ?. apply zlook_ext. intros k. rewrite zlook_zset by lia. destruct (Z.eqb_spec k i) as [->|]; done. Qed.
Definition gsep (f : Z -> res Z) (v : Z) : res Z := if v =? -1 then Ok v else f v.
Lemma rewriteAll_eq f conn : rewriteAll f conn = mapR (gsep f) conn.
Proof.
  unfold rewriteAll. apply inplace. intros c i v Hv. apply zlook_Some_lt in Hv as ?. rewrite (rd_ok _ _ _ Hv). cbn [bind]. unfold gsep. destruct (v =? -1); cbn [bind]; [rewrite zset_same by done; done|]. destruct (f v); cbn [bind]; try done. rewrite wr_ok by lia. done.
Qed.
(** The name of a node, the separators being kept. *)
Definition fn (g : Z -> Z) (n : Z) : Z := if 0 <=? n then g n else n.
Lemma rename_nodes g c : (rename g c).2 = fn g <$> c.2.
Proof. done. Qed.
Lemma rename_concat g (cells : list cell) : concat (snd <$> (rename g <$> cells)) = fn g <$> concat (snd <$> cells).
Proof. induction cells as [|c r IH]; [done|]. rewrite !fmap_cons. cbn [concat]. rewrite fmap_app, <- IH. done. Qed.
Lemma s_renamed m cells g conn' : s_holds m cells -> conn' = fn g <$> concat (snd <$> cells) -> s_holds (SG (sg_cm m) (sg_coords m) (Some conn')) (rename g <$> cells).
Proof.
  intros (H1 & H2 & H3 & H4) ->. split; [done|]. split; [done|]. split; [|cbn; by rewrite rename_concat]. intros c Hc. apply elem_of_list_fmap in Hc as (d & -> & Hd). destruct (H3 d Hd) as [Ha Hb]. cbn. rewrite zlen_fmap. done.
Qed.
Lemma d_renamed m cells g conn connI conn' : d_holds m cells -> dg_conn m = Some conn -> dg_connI m = Some connI -> zlen conn' = zlen conn -> (forall j v w, conn @ j = Some v -> conn' @ j = Some w -> (exists c, c ∈ cells /\ v ∈ c.2) -> w = fn g v) ->
  d_holds (DG (dg_cm m) (dg_coords m) (Some conn') (Some connI)) (rename g <$> cells).
Proof.
  intros (H1 & H2 & H3 & cn & ci & f & E1 & E2 & Hl & Hp & H0 & Hf & Hf2) Ec EI Hz Hw. assert (cn = conn) as -> by congruence. assert (ci = connI) as -> by congruence. split; [done|]. split; [done|].
  split; [intros c Hc; apply elem_of_list_fmap in Hc as (d & -> & Hd); cbn; by apply H3|]. exists conn', connI, f. split; [done|]. split; [done|]. rewrite zlen_fmap. split; [done|]. rewrite Hz. split; [|done].
  intros i c Hc. rewrite zlook_fmap in Hc. destruct (cells @ i) as [d|] eqn:Hd; [|done]. injection Hc as <-. destruct (Hp i d Hd) as (a & b & Ea & Eb & Ha & Hab & Hb & E). exists a, b. split; [done|]. split; [done|]. split; [done|]. split; [done|]. split; [lia|].
  rewrite rename_nodes, E. apply zlook_ext_lt; [rewrite zlen_fmap; unfold sub; rewrite !zlen_take, !zlen_drop; lia|]. intros j Hj. rewrite zlen_fmap in Hj. assert (zlen (sub conn a b) = b - a) as Hs by (unfold sub; rewrite zlen_take, zlen_drop; lia).
  rewrite zlook_fmap, !zlook_sub by lia. destruct (zlook_lt conn (a + j)) as [v Hv]; [lia|]. destruct (zlook_lt conn' (a + j)) as [w Hw']; [lia|]. rewrite Hv, Hw'. cbn. f_equal. symmetry. apply (Hw _ _ _ Hv Hw'). exists d. split; [by eapply zlook_elem|]. rewrite E. apply (zlook_elem _ j). rewrite zlook_sub by lia. exact Hv.
Qed.
Lemma p_renamed m cells g conn' connI : d_packed m cells -> dg_connI m = Some connI -> conn' = fn g <$> concat (snd <$> cells) -> d_packed (DG (dg_cm m) (dg_coords m) (Some conn') (Some connI)) (rename g <$> cells).
Proof.
  intros (H1 & H2 & H3 & cn & ci & E1 & E2 & Hs1 & Hs2) EI ->. assert (ci = connI) as -> by congruence. split; [done|]. split; [done|]. split; [intros c Hc; apply elem_of_list_fmap in Hc as (d & -> & Hd); cbn; by apply H3|].
  eexists _, connI. split; [reflexivity|]. split; [done|]. split; [by rewrite rename_concat|]. assert (zlen <$> (snd <$> (rename g <$> cells)) = zlen <$> (snd <$> cells)) as ->; [|done]. rewrite <- !list_fmap_compose. apply list_fmap_ext. intros i c _. cbn. by rewrite zlen_fmap.
Qed.
Lemma mapR_look {A B} (f : A -> res B) l l' : mapR f l = Ok l' -> zlen l' = zlen l /\ forall j v w, l @ j = Some v -> l' @ j = Some w -> f v = Ok w.
Proof.
  revert l'. induction l as [|x l IH]; intros l' E; cbn [mapR] in E; [injection E as <-; split; [done|]; intros j v w Hv; by rewrite zlook_nil in Hv|].
  destruct (f x) as [y| | |] eqn:Ex; cbn [bind] in E; try done. destruct (mapR f l) as [t| | |]; cbn [bind] in E; try done. injection E as <-. destruct (IH t eq_refl) as [H1 H2]. split; [rewrite !zlen_cons; lia|].
  intros j v w. rewrite !zlook_cons. destruct (j =? 0); [intros [= <-] [= <-]; done|]. apply H2.
Qed.
(** The three ways to number the nodes: offset, array, map. *)
Lemma s_offset m cells o : s_holds m cells -> (forall c v, c ∈ cells -> v ∈ c.2 -> 0 <= v) -> exists m', S_renumberNodesWithOffsetInConn m o = Ok m' /\ s_holds m' (rename (fun v => v + o) <$> cells) /\ sg_coords m' = sg_coords m.
Proof.
  intros H Hv. unfold S_renumberNodesWithOffsetInConn, S_unchecked. rewrite (s_num m cells H), (s_conn m cells H). cbn [bind]. eexists. split; [reflexivity|]. split; [|done]. apply s_renamed; [done|]. apply list_fmap_ext. intros i v Hi. unfold fn.
  apply elem_of_list_lookup_2, concat_elem2 in Hi as (c & Hc & Hi). specialize (Hv c v Hc Hi). replace (0 <=? v) with true by lia. done.
Qed.
Lemma conn_nodes (cells : list cell) v : v ∈ concat (snd <$> cells) -> exists c, c ∈ cells /\ v ∈ c.2.
Proof. apply concat_elem2. Qed.
Lemma ren_at p v w : p @ v = Some w -> ren p v = w.
Proof. unfold ren. by intros ->. Qed.
Lemma s_array m cells nb p : s_holds m cells -> coords_of (sg_coords m) nb -> nb <= zlen p ->
  (within nb cells -> exists m', S_renumberNodesInConn m p = Ok m' /\ s_holds m' (rename (ren p) <$> cells) /\ sg_coords m' = sg_coords m) /\ (~ within nb cells -> S_renumberNodesInConn m p = Throw).
Proof.
  intros H Hd Hz. destruct (coords_nb _ _ Hd) as [Hnb Hnb0]. unfold S_renumberNodesInConn, S_unchecked, ubif. rewrite (s_num m cells H), (s_conn m cells H), Hnb. cbn [bind]. replace (_ <? nb) with false by lia.
  assert (Ht : zlen (take (Z.to_nat nb) p) = nb) by (rewrite zlen_take; lia). split.
  - intros Hw. destruct (transform_ok (concat (snd <$> cells)) (take (Z.to_nat nb) p)) as (d' & -> & HF). { intros v Hv. apply conn_nodes in Hv as (c & Hc & Hv). rewrite Ht. by eapply Hw. }
    cbn [bind]. eexists. split; [reflexivity|]. split; [|done]. apply s_renamed; [done|]. apply zlook_ext_lt; [rewrite zlen_fmap; unfold zlen; by rewrite (Forall2_length _ _ _ HF)|]. intros j Hj. rewrite zlook_fmap. destruct (zlook_lt _ _ Hj) as [w Hw']. rewrite Hw'. destruct (zlook_lt (concat (snd <$> cells)) j) as [v Hv]. { unfold zlen in Hj |- *. by rewrite (Forall2_length _ _ _ HF). }
    rewrite Hv. cbn. f_equal. unfold fn. apply zlook_elem in Hv as Hin. apply conn_nodes in Hin as (c & Hc & Hin). specialize (Hw c v Hc Hin). replace (0 <=? v) with true by lia. symmetry. apply ren_at.
    assert (HG : take (Z.to_nat nb) p @ v = Some w). { rewrite zlook_to_nat in Hv, Hw' by lia. by apply (Forall2_lookup_lr _ _ _ _ _ _ HF Hv Hw'). }
    rewrite zlook_take in HG by lia. done.
  - intros Hw. destruct (decide (Forall (fun v => 0 <= v < nb) (concat (snd <$> cells)))) as [Ha|Ha].
    + exfalso. apply Hw. intros c v Hc Hv. rewrite Forall_forall in Ha. apply Ha, concat_elem2. eauto.
    + apply not_Forall_Exists in Ha; [|intros v; apply _]. apply Exists_exists in Ha as (v & Hv & Hn). rewrite (transform_throw _ _ v Hv) by (by rewrite Ht). done.
Qed.
Lemma s_map m cells (p : gmap Z Z) : s_holds m cells ->
  ((forall c v, c ∈ cells -> v ∈ c.2 -> 0 <= v /\ is_Some (p !! v)) -> exists m', S_renumberNodesInConnT m p = Ok m' /\ s_holds m' (rename (mren p) <$> cells) /\ sg_coords m' = sg_coords m) /\
  ((exists c v, c ∈ cells /\ v ∈ c.2 /\ p !! v = None) -> S_renumberNodesInConnT m p = Throw).
Proof.
  intros H. unfold S_renumberNodesInConnT, S_unchecked. rewrite (s_num m cells H), (s_conn m cells H). cbn [bind]. set (conn := concat (snd <$> cells)).
  rewrite (inplace (fun v => match p !! v with Some w => Ok w | None => Throw end)).
  2:{ intros c i v Hv. apply zlook_Some_lt in Hv as ?. rewrite (rd_ok _ _ _ Hv). cbn [bind]. destruct (p !! v); [rewrite wr_ok by lia|]; done. }
  split.
  - intros Hv. rewrite (mapR_ok _ (fn (mren p))).
    + cbn [bind]. eexists. split; [reflexivity|]. split; [|done]. by apply s_renamed.
    + intros v Hin. apply conn_nodes in Hin as (c & Hc & Hin). destruct (Hv c v Hc Hin) as [Hv0 [w Hw]]. unfold fn, mren. rewrite Hw. replace (0 <=? v) with true by lia. done.
  - intros (c & v & Hc & Hv & Hn). rewrite mapR_throw; [done| |].
    + intros x _. destruct (p !! x); eauto.
    + exists v. split; [apply concat_elem2; eauto|]. by rewrite Hn.
Qed.
(** Dynamic types. *)
Definition D_rw (m : dgt) (f : Z -> res Z) : res dgt :=
  let* _ := D_getNumberOfCells m in D_unchecked m (fun conn connI => let* conn := rewriteAll f conn in Ok (DG (dg_cm m) (dg_coords m) (Some conn) (Some connI))).
Lemma rw_any m m' cells f g : d_holds m cells -> D_rw m f = Ok m' -> (forall c v w, c ∈ cells -> v ∈ c.2 -> v <> -1 -> f v = Ok w -> 0 <= v /\ w = g v) -> d_holds m' (rename g <$> cells) /\ dg_coords m' = dg_coords m.
Proof.
  intros H E Hg. destruct (d_data m cells H) as (conn & connI & E1 & E2 & _ & _ & En & _ & Eu & _). unfold D_rw in E. rewrite En in E. cbn [bind] in E. rewrite Eu, rewriteAll_eq in E. destruct (mapR _ conn) as [conn'| | |] eqn:Em; cbn [bind] in E; try done. injection E as <-. split; [|done].
  destruct (mapR_look _ _ _ Em) as [Hz Hl]. eapply d_renamed; [done..|]. intros j v w Hv Hw (c & Hc & Hin). specialize (Hl j v w Hv Hw). unfold gsep in Hl. unfold fn. destruct (Z.eqb_spec v (-1)) as [->|Hne]; [injection Hl as <-; done|]. destruct (Hg c v w Hc Hin Hne Hl) as [Hv0 ->]. replace (0 <=? v) with true by lia. done.
Qed.
Lemma rw_packed m cells f g : d_packed m cells -> (forall c v, c ∈ cells -> v ∈ c.2 -> v = -1 \/ 0 <= v /\ f v = Ok (g v)) -> exists m', D_rw m f = Ok m' /\ d_packed m' (rename g <$> cells) /\ dg_coords m' = dg_coords m.
Proof.
  intros Hpk Hg. pose proof (packed_holds _ _ Hpk) as H. pose proof (packed_conn _ _ Hpk) as Ecn. destruct (d_data m cells H) as (conn & connI & E1 & E2 & _ & _ & En & _ & Eu & _). assert (conn = concat (snd <$> cells)) as -> by congruence.
  unfold D_rw. rewrite En. cbn [bind]. rewrite Eu, rewriteAll_eq. rewrite (mapR_ok _ (fn g)).
  - cbn [bind]. eexists. split; [reflexivity|]. split; [|done]. by apply p_renamed.
  - intros v Hin. apply conn_nodes in Hin as (c & Hc & Hin). unfold gsep, fn. destruct (Hg c v Hc Hin) as [->|[Hv0 Hf]]; [done|]. replace (v =? -1) with false by lia. replace (0 <=? v) with true by lia. done.
Qed.
Lemma rw_throw m cells f : d_packed m cells -> (forall v, f v = Throw \/ exists w, f v = Ok w) -> (exists c v, c ∈ cells /\ v ∈ c.2 /\ v <> -1 /\ f v = Throw) -> D_rw m f = Throw.
Proof.
  intros Hpk Hf (c & v & Hc & Hv & Hn & Ht). pose proof (packed_holds _ _ Hpk) as H. pose proof (packed_conn _ _ Hpk) as Ecn. destruct (d_data m cells H) as (conn & connI & E1 & E2 & _ & _ & En & _ & Eu & _). assert (conn = concat (snd <$> cells)) as -> by congruence.
  unfold D_rw. rewrite En. cbn [bind]. rewrite Eu, rewriteAll_eq. rewrite mapR_throw; [done| |].
  - intros x _. unfold gsep. destruct (x =? -1); [eauto|]. apply Hf.
  - exists v. split; [apply concat_elem2; eauto|]. unfold gsep. replace (v =? -1) with false by lia. done.
Qed.
Lemma d_offset m cells o : d_holds m cells -> separators cells -> exists m', D_renumberNodesWithOffsetInConn m o = Ok m' /\ d_holds m' (rename (fun v => v + o) <$> cells) /\ dg_coords m' = dg_coords m.
Proof.
  intros H Hs. change (D_renumberNodesWithOffsetInConn m o) with (D_rw m (fun v => Ok (v + o))). assert (exists m', D_rw m (fun v => Ok (v + o)) = Ok m') as [m' E].
  { destruct (d_data m cells H) as (conn & connI & E1 & E2 & _ & _ & En & _ & Eu & _). unfold D_rw. rewrite En. cbn [bind]. rewrite Eu, rewriteAll_eq. rewrite (mapR_ok _ (fun v => if v =? -1 then v else v + o)) by (intros v _; unfold gsep; destruct (v =? -1); done). cbn [bind]. eauto. }
  exists m'. split; [done|]. eapply rw_any; [done..|]. intros c v w Hc Hv Hn [= <-]. specialize (Hs c v Hc Hv). split; [lia|done].
Qed.
Lemma d_offset_packed m cells o : d_packed m cells -> separators cells -> exists m', D_renumberNodesWithOffsetInConn m o = Ok m' /\ d_packed m' (rename (fun v => v + o) <$> cells) /\ dg_coords m' = dg_coords m.
Proof. intros H Hs. change (D_renumberNodesWithOffsetInConn m o) with (D_rw m (fun v => Ok (v + o))). apply rw_packed; [done|]. intros c v Hc Hv. specialize (Hs c v Hc Hv). destruct (decide (v = -1)); [by left|]. right. split; [lia|done]. Qed.
Lemma array_rw m nb p : coords_of (dg_coords m) nb -> D_renumberNodesInConn m p = D_rw m (fun v => if (0 <=? v) && (v <? nb) then rd p v else Throw).
Proof. intros Hd. destruct (coords_nb _ _ Hd) as [Hnb _]. unfold D_renumberNodesInConn, D_rw. rewrite Hnb. done. Qed.
Lemma d_array m cells nb p : d_packed m cells -> coords_of (dg_coords m) nb -> nb <= zlen p ->
  (within_sep nb cells -> exists m', D_renumberNodesInConn m p = Ok m' /\ d_packed m' (rename (ren p) <$> cells) /\ dg_coords m' = dg_coords m) /\ (~ within_sep nb cells -> D_renumberNodesInConn m p = Throw).
Proof.
  intros H Hd Hz. rewrite (array_rw m nb p Hd). assert (Hr : forall v, 0 <= v < nb -> rd p v = Ok (ren p v)). { intros v Hv. destruct (zlook_lt p v) as [w Hw]; [lia|]. rewrite (rd_ok _ _ _ Hw), (ren_at _ _ _ Hw). done. }
  split; intros Hw.
  - apply rw_packed; [done|]. intros c v Hc Hv. destruct (Hw c v Hc Hv) as [->|Hb]; [by left|]. right. split; [lia|]. replace (_ && _) with true by lia. by apply Hr.
  - apply (rw_throw m cells); [done| |].
    + intros v. destruct ((0 <=? v) && (v <? nb)) eqn:E; [|by left]. right. rewrite Hr by lia. eauto.
    + destruct (decide (Forall (fun v => v = -1 \/ 0 <= v < nb) (concat (snd <$> cells)))) as [Ha|Ha].
      * exfalso. apply Hw. intros c v Hc Hv. rewrite Forall_forall in Ha. apply Ha, concat_elem2. eauto.
      * apply not_Forall_Exists in Ha; [|intros v; apply _]. apply Exists_exists in Ha as (v & Hv & Hn). change (~ (v = -1 \/ 0 <= v < nb)) in Hn. apply concat_elem2 in Hv as (c & Hc & Hv). exists c, v. split; [done|]. split; [done|]. split; [tauto|]. replace (_ && _) with false by lia. done.
Qed.
Lemma d_array_any m m' cells nb p : d_holds m cells -> coords_of (dg_coords m) nb -> D_renumberNodesInConn m p = Ok m' -> d_holds m' (rename (ren p) <$> cells) /\ dg_coords m' = dg_coords m.
Proof.
  intros H Hd. rewrite (array_rw m nb p Hd). intros E. eapply rw_any; [done..|]. intros c v w _ _ _ Ew. cbn in Ew. destruct ((0 <=? v) && (v <? nb)) eqn:E0; [|done]. split; [lia|]. unfold rd in Ew. destruct (p @ v) as [x|] eqn:Ex; [|done]. injection Ew as <-. by rewrite (ren_at _ _ _ Ex).
Qed.
Lemma d_map m cells (p : gmap Z Z) : d_packed m cells ->
  ((forall c v, c ∈ cells -> v ∈ c.2 -> v = -1 \/ 0 <= v /\ is_Some (p !! v)) -> exists m', D_renumberNodesInConnT m p = Ok m' /\ d_packed m' (rename (mren p) <$> cells) /\ dg_coords m' = dg_coords m) /\
  ((exists c v, c ∈ cells /\ v ∈ c.2 /\ v <> -1 /\ (v < 0 \/ p !! v = None)) -> D_renumberNodesInConnT m p = Throw).
Proof.
  intros H. change (D_renumberNodesInConnT m p) with (D_rw m (fun v => if 0 <=? v then match p !! v with Some w => Ok w | None => Throw end else Throw)). split.
  - intros Hv. apply rw_packed; [done|]. intros c v Hc Hin. destruct (Hv c v Hc Hin) as [->|[H0 [w Hw]]]; [by left|]. right. split; [done|]. unfold mren. rewrite Hw. replace (0 <=? v) with true by lia. done.
  - intros (c & v & Hc & Hin & Hn & Hv). apply (rw_throw m cells); [done|intros x; destruct (0 <=? x), (p !! x); eauto|]. exists c, v. split; [done|]. split; [done|]. split; [done|]. destruct (0 <=? v) eqn:E; [|done]. destruct Hv as [?| ->]; [lia|done].
Qed.

(** * Cells lying on nodes *)
Lemma hits_span ff (ids conn : list Z) a b : 0 <= a <= b -> b <= zlen conn -> (forall v, v ∈ sub conn a b -> 0 <= v -> ff @ v = Some (bool_decide (v ∈ ids))) ->
  exists r h, hitsOf ff conn a b = Ok (r, h) /\ 0 <= h <= r /\ (r = h <-> forall n, n ∈ sub conn a b -> 0 <= n -> n ∈ ids) /\ (h <> 0 <-> exists n, n ∈ sub conn a b /\ 0 <= n /\ n ∈ ids).
Proof.
  intros H1 H2 Hff. destruct (sub_split conn a b H1 H2) as (P & R & E & HP & Hl). destruct (hits_loop ff ids P (sub conn a b) R Hff) as (r & h & Eh & Hh). exists r, h. split; [|done]. unfold hitsOf. rewrite <- E, HP, Hl in Eh. replace (a + (b - a)) with b in Eh by lia. exact Eh.
Qed.
Lemma finderOf_ok (conn ids : list Z) : conn <> [] -> exists ff, finderOf conn ids = Ok ff /\ forall v, v ∈ conn -> 0 <= v -> ff @ v = Some (bool_decide (v ∈ ids)).
Proof.
  intros Hne. destruct conn as [|x rest]; [done|]. unfold finderOf. set (sz := Z.max (foldr Z.max x rest) 0 + 1). destruct (finder_ok ids sz) as (ff & E & Hff); [lia|]. exists ff. split; [done|]. intros v Hv Hv0. apply Hff. split; [done|]. apply max_elem in Hv. unfold sz. lia.
Qed.
Lemma keep_loop (conn : list Z) lo hi (cells : list cell) (ids : list Z) b ff (body : Z -> list Z -> res (list Z)) : bounded conn lo hi 0 cells -> (forall v, v ∈ conn -> 0 <= v -> ff @ v = Some (bool_decide (v ∈ ids))) ->
  (forall i a b' kept, lo i = Ok a -> hi i = Ok b' -> 0 <= a <= b' -> b' <= zlen conn -> body i kept = let* (ref, nbOfHit) := hitsOf ff conn a b' in Ok (if ((ref =? nbOfHit) && b) || (negb (nbOfHit =? 0) && negb b) then kept ++ [i] else kept)) ->
  exists l, forZ 0 (zlen cells) body [] = Ok l /\ ascending l /\ forall i, i ∈ l <-> exists c, cells @ i = Some c /\ lies_on b ids c.
Proof.
  intros Hb Hff Hbody. edestruct (select_loop (A := cell)) with (l := cells) (ok := fun c => if liesOn_dec b ids c then true else false) as (r & E & Ha & Hr); cycle 1.
  { rewrite E. exists r. split; [done|]. split; [done|]. intros i. rewrite Hr. split; intros (c & Hc & H); exists c; (split; [done|]); destruct (liesOn_dec b ids c); done. }
  intros i c k Hc. destruct (Hb i c Hc) as (x & y & E1 & E2 & Hxy & Hy & Ec). rewrite Z.add_0_l in E1, E2. rewrite (Hbody i x y k E1 E2 Hxy Hy).
  destruct (hits_span ff ids conn x y Hxy Hy) as (rf & h & -> & Hh & H1 & H2). { intros v Hv. apply Hff. by eapply sub_elem. }
  rewrite <- Ec in H1, H2. cbn [bind]. f_equal. unfold lies_on. destruct b, (liesOn_dec _ ids c) as [Hl|Hl]; cbn in Hl; try (apply H1 in Hl as ->); try (apply H2 in Hl).
  + rewrite Z.eqb_refl. done.
  + replace (rf =? h) with false; [rewrite andb_false_r; done|]. symmetry. apply Z.eqb_neq. intros E. by apply Hl, H1.
  + replace (h =? 0) with false by lia. rewrite andb_false_r. done.
  + replace (h =? 0) with true; [rewrite andb_false_r; done|]. symmetry. apply Z.eqb_eq. destruct (decide (h = 0)); [done|]. exfalso. by apply Hl, H2.
Qed.
Lemma s_keep m cells ids b : s_holds m cells -> cells <> [] -> exists l, S_fillCellIdsToKeepFromNodeIds m ids b = Ok l /\ ascending l /\ forall i, i ∈ l <-> exists c, cells @ i = Some c /\ lies_on b ids c.
Proof.
  intros H Hne. unfold S_fillCellIdsToKeepFromNodeIds, S_unchecked. rewrite (s_num m cells H), (s_conn m cells H), (s_perCell m cells H). cbn [bind]. pose proof (s_k m cells H) as Hk. pose proof (s_zlen m cells H) as Hz. set (conn := concat (snd <$> cells)) in *.
  destruct (finderOf_ok conn ids) as (ff & -> & Hff). { intros E. rewrite E in Hz. change (zlen (@nil Z)) with 0 in Hz. destruct cells as [|c r]; [done|]. rewrite zlen_cons in Hz. pose proof (zlen_nonneg r). nia. }
  cbn [bind]. eapply keep_loop; [by apply (s_bounded m cells H)|exact Hff|]. intros i x y kept [= <-] [= <-] _ _. done.
Qed.
Lemma s_keep_none m ids b : s_holds m [] -> S_fillCellIdsToKeepFromNodeIds m ids b = Throw.
Proof. intros H. unfold S_fillCellIdsToKeepFromNodeIds, S_unchecked. rewrite (s_num m [] H), (s_conn m [] H). done. Qed.
Lemma d_keep m cells ids b : d_holds m cells -> (exists c, c ∈ cells /\ c.2 <> []) -> exists l, D_fillCellIdsToKeepFromNodeIds m ids b = Ok l /\ ascending l /\ forall i, i ∈ l <-> exists c, cells @ i = Some c /\ lies_on b ids c.
Proof.
  intros H (c & Hc & Hne). destruct (d_data m cells H) as (conn & connI & E1 & E2 & _ & Hp & En & _ & Eu & Hb1 & _). unfold D_fillCellIdsToKeepFromNodeIds. rewrite En. cbn [bind]. rewrite Eu.
  destruct (finderOf_ok conn ids) as (ff & -> & Hff). { intros E. apply elem_of_zlook in Hc as [i Hi]. destruct (Hp i c Hi) as (x & y & _ & _ & _ & _ & _ & Es). rewrite E in Es. unfold sub in Es. rewrite drop_nil, take_nil in Es. done. }
  cbn [bind]. eapply keep_loop; [exact Hb1|exact Hff|]. intros i x y kept Ex Ey Hxy Hy. unfold dLo in Ex. unfold dHi in Ey. rewrite Ex, Ey. cbn [bind]. unfold ifthrow. replace (y - x <? 0) with false by lia. done.
Qed.
Lemma d_keep_none m cells ids b : d_packed m cells -> (forall c, c ∈ cells -> c.2 = []) -> D_fillCellIdsToKeepFromNodeIds m ids b = Throw.
Proof.
  intros Hpk Hn. pose proof (packed_holds _ _ Hpk) as H. pose proof (packed_conn _ _ Hpk) as Ecn. destruct (d_data m cells H) as (conn & connI & E1 & E2 & _ & Hp & En & _ & Eu & Hb1 & _). unfold D_fillCellIdsToKeepFromNodeIds. rewrite En. cbn [bind]. rewrite Eu.
  assert (conn = []) as ->; [|done]. assert (conn = concat (snd <$> cells)) as -> by congruence. clear -Hn. induction cells as [|c r IH]; [done|]. rewrite fmap_cons. cbn [concat]. rewrite (Hn c) by left. rewrite IH; [done|]. intros d Hd. apply Hn. by right.
Qed.
