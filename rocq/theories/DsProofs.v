From Coq Require Import QArith ZifyBool ZifyNat.
From Verif Require Import CellModel Base DataArray ArrLib FillLib StdModel StdProofs IndexSpec IndexProofs2 IndexProofs3 IndexProofs4 SkyModel SkyProofs RenumModel RenumSpec RenumProofs RenumProofs2 PartSpec PartModel PartProofs4 CellTable UmModel UmSpec UmProofs UmProofs2 UmProofs3 UmProofs8 UmProofs10 UcModel UcSpec UcProofs UcProofs2 UcProofs3 UcProofs4 DsModel DsSpec.
Local Open Scope Z_scope.

(** The mesh with these cells. *)
Definition um (d : Z) (co : option (da Q)) (cs : list cell) : umesh := UM d co (Some (concat (pk <$> cs))) (Some (psums (lens cs))) (typesOf cs).
Lemma um_stores d co cs : stores (um d co cs) cs.
Proof. apply stores_sel. Qed.
Lemma um_typed d co cs : typed (um d co cs) cs.
Proof. by apply typed_types. Qed.
Lemma insert_um d co cs (f : cell) : insertable d f -> insertNextCell (um d co cs) f.1 (zlen f.2) f.2 = Ok (um d co (cs ++ [f])).
Proof.
  destruct f as [t ns]. intros (k & Hk & Hd & Hn). unfold insertNextCell. cbn [fst snd] in *. rewrite Hk. cbn [bind um um_connI um_conn um_dim]. rewrite Hd, Z.eqb_refl.
  assert (negb (cm_dyn k) && negb (zlen ns =? cm_nbpts k) = false) as ->. { destruct (cm_dyn k); [done|]. rewrite Hn by done. rewrite Z.eqb_refl. done. }
  unfold ifthrow. rewrite psums_len. pose proof (zlen_nonneg (lens cs)). replace (zlen (lens cs) + 1 =? 0) with false by lia. replace (zlen (lens cs) + 1 - 1) with (zlen (lens cs)) by lia. rewrite (rd_ok _ _ _ (psums_end _)). cbn [bind]. rewrite <- (conn_len cs).
  unfold writeOnPlace, ubif. pose proof (zlen_nonneg (concat (pk <$> cs))). pose proof (zlen_nonneg ns). replace (_ || _ || _ || _) with false by lia. cbn [bind]. f_equal. unfold um. f_equal; f_equal.
  - rewrite !take_ge by (unfold zlen; lia). rewrite drop_ge by (unfold zlen; lia). rewrite app_nil_r. rewrite fmap_app, concat_app. cbn [fmap list_fmap concat]. rewrite app_nil_r. done.
  - rewrite lens_snoc, psums_snoc_eq. f_equal. f_equal. rewrite conn_len. cbn [snd]. lia.
  - by rewrite typesOf_snoc.
Qed.

(** The cells that own the sons. *)
Fixpoint own (k : Z) (fss : list (list cell)) : list Z := match fss with [] => [] | fs :: r => replicate (length fs) k ++ own (k + 1) r end.
Lemma own_app k a b : own k (a ++ b) = own k a ++ own (k + zlen a) b.
Proof. revert k. induction a as [|x a IH]; intros k; cbn [own app]; [by rewrite zlen_nil, Z.add_0_r|]. rewrite IH, <- app_assoc, zlen_cons. do 3 f_equal. lia. Qed.
Lemma occ_app k a b : occ k (a ++ b) = occ k a ++ occ (k + zlen a) b.
Proof. revert k. induction a as [|x a IH]; intros k; cbn [occ app]; [by rewrite zlen_nil, Z.add_0_r|]. rewrite IH, <- app_assoc, zlen_cons. do 3 f_equal. lia. Qed.

Section Count.
Context (nb : Z) (cs : list cell).
Hypothesis Hnb : 0 <= nb.
Hypothesis Hn : forall f n, f ∈ cs -> n ∈ f.2 -> 0 <= n < nb.
Let F := occ 0 cs.
Definition cnts (pre : list (Z * Z)) : list Z := 0 :: ((fun v => zlen (cof pre v)) <$> seqZ 0 nb).
Lemma F_ok i v : (i, v) ∈ F -> 0 <= i /\ v < nb.
Proof. intros Hin. apply occ_elem in Hin as (c & Hc & Hv). apply zlook_Some_lt in Hc as ?. split; [lia|]. eapply Hn; [by eapply zlook_elem|done]. Qed.
Lemma count_step pre (p : Z * Z) : (forall q, q ∈ pre ++ [p] -> q ∈ F) -> (if 0 <=? p.2 then (let* x := rd (cnts pre) (p.2 + 1) in wr (cnts pre) (p.2 + 1) (x + 1)) else Ok (cnts pre)) = Ok (cnts (pre ++ [p])).
Proof.
  intros H. destruct (count_loop nb F Hnb F_ok pre) as (n & E1 & _); [intros q Hq; apply H, elem_of_app; by left|]. destruct (count_loop nb F Hnb F_ok (pre ++ [p])) as (n' & E2 & _); [done|].
  rewrite foldM_app, E1 in E2. cbn [bind foldM] in E2. fold (cnts pre) in E2. fold (cnts (pre ++ [p])) in E2. destruct (0 <=? p.2); cbn [bind] in E2; [|congruence]. destruct (rd (cnts pre) (p.2 + 1)) as [x| | |]; cbn [bind] in *; try done. destruct (wr (cnts pre) (p.2 + 1) (x + 1)); cbn [bind] in *; congruence.
Qed.
Lemma count_son pre f post : cs = pre ++ f :: post ->
  foldM (fun rI v => if 0 <=? v then (let* x := rd rI (v + 1) in wr rI (v + 1) (x + 1)) else Ok rI) f.2 (cnts (occ 0 pre)) = Ok (cnts (occ 0 (pre ++ [f]))).
Proof.
  intros E. rewrite occ_app. cbn [occ]. rewrite app_nil_r, Z.add_0_l. set (k := zlen pre).
  assert (G : forall a b, f.2 = a ++ b -> foldM (fun rI v => if 0 <=? v then (let* x := rd rI (v + 1) in wr rI (v + 1) (x + 1)) else Ok rI) a (cnts (occ 0 pre)) = Ok (cnts (occ 0 pre ++ ((fun v => (k, v)) <$> a)))); [|by apply (G f.2 []); rewrite app_nil_r].
  induction a as [|v a IH] using rev_ind; intros b Eb; [by rewrite app_nil_r|]. rewrite <- app_assoc in Eb. rewrite foldM_app, (IH _ Eb). cbn [bind foldM]. rewrite fmap_app. change ((fun v0 => (k, v0)) <$> [v]) with [(k, v)]. rewrite app_assoc.
  rewrite <- (count_step (occ 0 pre ++ ((fun v0 => (k, v0)) <$> a)) (k, v)); [cbn [snd]; destruct (0 <=? v); [destruct (rd _ _); cbn [bind]; try done; destruct (wr _ _ _); done|done]|].
  intros q Hq. unfold F. rewrite E. rewrite occ_app. cbn [occ]. rewrite Z.add_0_l. fold k. rewrite Eb, !fmap_app. change ((fun v0 => (k, v0)) <$> [v]) with [(k, v)]. rewrite !elem_of_app in *. tauto.
Qed.
Lemma cnts_start : replicate (Z.to_nat (nb + 1)) 0 = cnts [].
Proof. destruct (count_loop nb F Hnb F_ok []) as (n & E & _); [intros q Hq; by apply elem_of_nil in Hq|]. cbn [foldM] in E. by injection E as _ ->. Qed.
Lemma cnts_psum : forZ 1 (nb + 1) (fun k rI => let* x := rd rI k in let* y := rd rI (k - 1) in wr rI k (x + y)) (cnts (occ 0 cs)) = Ok (psums (zlen <$> (cells_of_node 0 cs <$> seqZ 0 nb))).
Proof.
  assert (E : zlen <$> (cof F <$> seqZ 0 nb) = (fun v => zlen (cof F v)) <$> seqZ 0 nb) by (by rewrite <- list_fmap_compose).
  pose proof (psum_loop nb F Hnb F_ok) as H. rewrite E in H. unfold cnts. fold F. rewrite H. do 2 f_equal. rewrite <- list_fmap_compose. apply list_fmap_ext. intros j x _. cbn. unfold F. by rewrite cof_occ.
Qed.
End Count.

Section NoFuse.
Context (g : gen) (m : umesh) (cells : list cell) (fss : list (list cell)) (nb : Z).
Hypothesis Hst : stores m cells.
Hypothesis Hnd : has_nodes m nb.
Hypothesis Hsons : Forall2 (sons g) cells fss.
Hypothesis Hdim : -1 <= um_dim m - g_delta g <= 3.
Hypothesis Hdim0 : -1 <= um_dim m.
Hypothesis Hgood : forall f, f ∈ concat fss -> good_son (um_dim m - g_delta g) nb f.
Let dim := um_dim m - g_delta g.
Let st (pre : list (list cell)) := (um dim (um_coords m) (concat pre), cnts nb (occ 0 (concat pre)), psums (zlen <$> pre), own 0 pre).
Lemma nb_nonneg : 0 <= nb.
Proof. destruct Hnd as (d & _ & _ & Hw & <-). destruct (da_wf_len d Hw) as (_ & H & _). done. Qed.
Lemma son_nodes f n : f ∈ concat fss -> n ∈ f.2 -> 0 <= n < nb.
Proof. intros Hf. destruct (Hgood f Hf) as (_ & H & _). apply H. Qed.

Lemma nofuse_ok : buildDescendingConnectivityNoFuseGen g m = Ok (um dim (um_coords m) (concat fss), psums (zlen <$> fss), psums (zlen <$> (cells_of_node 0 (concat fss) <$> seqZ 0 nb)), own 0 fss).
Proof.
  destruct (stores_get m cells Hst) as (conn & connI & Ec & EI & Hsky & _). pose proof (numCells_ok m cells Hst) as Hnc. pose proof nb_nonneg as Hnb. destruct (stored_starts cells conn connI Hsky) as (Hstart & Hconn & HlI).
  unfold buildDescendingConnectivityNoFuseGen, checkConnectivityFullyDefined. rewrite Ec, EI, Hnc. cbn [bind]. unfold getNumberOfNodes. destruct Hnd as (d & Hd & _ & _ & Hnt). rewrite Hd, Hnt. cbn [bind].
  unfold getMeshDimension. replace (um_dim m <? -1) with false by lia. cbn [ifthrow bind]. unfold newMesh. replace (_ || _) with false by lia. cbn [ifthrow bind]. unfold allocateCells. pose proof (zlen_nonneg cells). replace (2 * zlen cells <? 0) with false by lia. cbn [ifthrow bind um_dim um_coords].
  rewrite (cnts_start nb (concat fss) Hnb son_nodes).
  change (UM (um_dim m - g_delta g) (Some d) (Some []) (Some [0]) [], cnts nb [], [0], []) with (UM (um_dim m - g_delta g) (Some d) (Some []) (Some [0]) [], cnts nb (occ 0 (concat (@nil (list cell)))), psums (zlen <$> (@nil (list cell))), own 0 []).
  change (UM (um_dim m - g_delta g) (Some d) (Some []) (Some [0]) []) with (um dim (Some d) (concat [])). rewrite <- Hd. change (um dim (um_coords m) (concat []), cnts nb (occ 0 (concat [])), psums (zlen <$> []), own 0 []) with (st []).
  rewrite (forZ_blocks _ st (zlen cells) fss); [|unfold zlen; f_equal; symmetry; by eapply Forall2_length|].
  - unfold st. cbn [bind]. rewrite (cnts_psum nb (concat fss) Hnb son_nodes). done.
  - intros pre fs post E. unfold st at 1. cbn iota.
    assert (Hc : exists c, cells @ zlen pre = Some c /\ sons g c fs).
    { rewrite E in Hsons. apply Forall2_app_inv_r in Hsons as (c1 & c2 & H1 & H2 & Ecs). inversion H2 as [|c ? c3 ? Hc ?]; subst. exists c. split; [|done]. rewrite zlook_app_r; unfold zlen; rewrite (Forall2_length _ _ _ H1); [by rewrite Z.sub_diag|lia]. }
    destruct Hc as (c & Hc & k & Hk & Hnbs & Hfill). destruct (cell_at cells conn connI (zlen pre) c Hsky Hc) as (o & H1 & H2 & Ho & Ho2 & P & R & EP & HP). rewrite (rd_ok _ _ _ H1). cbn [bind]. rewrite (rd_ok _ _ _ H2). cbn [bind].
    rewrite (rd_ok conn o c.1) by (rewrite EP, zlook_app_r, HP, Z.sub_diag by lia; done). cbn [bind]. rewrite Hk. cbn [bind].
    assert (range conn (o + 1) (o + 1 + zlen c.2) = Ok c.2) as ->. { rewrite EP, split_pk. pose proof (range_mid (P ++ [c.1]) c.2 R) as Hm. rewrite zlen_snoc1, HP in Hm. exact Hm. }
    cbn [bind]. rewrite Hnbs. cbn [bind].
    set (si := fun l : list cell => (um dim (um_coords m) (concat pre ++ l), cnts nb (occ 0 (concat pre ++ l)), own 0 pre ++ replicate (length l) (zlen pre))).
    assert (Ei : (um dim (um_coords m) (concat pre), cnts nb (occ 0 (concat pre)), own 0 pre) = si []) by (unfold si; cbn [length replicate]; by rewrite !app_nil_r). rewrite Ei.
    rewrite (forZ_blocks _ si (zlen fs) fs); [|done|].
    + unfold si. cbn [bind]. rewrite (rd_ok _ _ (zsum (zlen <$> pre))); [|rewrite psums_len; replace (_ + 1 - 1) with (zlen (zlen <$> pre)) by lia; apply psums_end]. cbn [bind]. unfold st. rewrite concat_app. cbn [concat]. rewrite app_nil_r. rewrite fmap_app. change (zlen <$> [fs]) with [zlen fs]. rewrite psums_snoc_eq, own_app. cbn [own]. rewrite app_nil_r, Z.add_0_l. done.
    + intros a f b Ef. unfold si at 1. cbn iota. destruct (Hfill (zlen a) f) as (Hf1 & Hf2); [rewrite Ef, zlook_app_r, Z.sub_diag by lia; done|]. rewrite Hf1. cbn [bind]. destruct f as [t ns] eqn:Eft. rewrite <- Eft in *. replace (o + 1 + zlen c.2 - o <? zlen ns) with false by (rewrite Eft in Hf2; cbn [snd] in Hf2; lia). cbn [ubif].
      assert (Ecs : concat fss = (concat pre ++ a) ++ f :: (b ++ concat post)) by (rewrite E, concat_app; cbn [concat]; rewrite Ef, <- !app_assoc; done).
      pose proof (count_son nb (concat fss) Hnb son_nodes (concat pre ++ a) f (b ++ concat post) Ecs) as Hcs. rewrite Eft in Hcs at 1. cbn [snd] in Hcs. rewrite Hcs. cbn [bind].
      pose proof (insert_um dim (um_coords m) (concat pre ++ a) f) as Hi. rewrite Eft in Hi at 2 3 4. cbn [fst snd] in Hi. rewrite Hi by (apply Hgood; rewrite Ecs; apply elem_of_app; right; left). cbn [bind]. unfold si. rewrite app_length. cbn [length]. rewrite replicate_add, <- !app_assoc. done.
Qed.
End NoFuse.
