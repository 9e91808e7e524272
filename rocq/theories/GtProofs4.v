From Coq Require Import QArith ZifyBool ZifyNat.
From stdpp Require Import gmap.
From Verif Require Import CellModel Base DataArray ArrLib FillLib SearchSpec SearchModel SearchProofs IndexSpec IndexModel IndexProofs IndexProofs2 IndexProofs4 IndexProofs3 SkySpec SkyModel SkyProofs SkyProofs4 CellTable CellProofs5 DsProofs6 GlModel GlProofs2 UmModel UmSpec UmProofs UmProofs2 UmProofs3 UmProofs4 UmProofs8 UmProofs9 MgSpec GtModel GtSpec GtProofs GtProofs2.
Local Open Scope Z_scope.

(** * Reverse connectivity *)
Definition cntBody (sep : bool) (nb : Z) (s : Z * list Z) (p : Z * Z) : res (Z * list Z) :=
  let '(n, rI) := s in if sep && (p.2 =? -1) then Ok (n, rI) else if (0 <=? p.2) && (p.2 <? nb) then (let* x := rd rI (p.2 + 1) in let* rI := wr rI (p.2 + 1) (x + 1) in Ok (n + 1, rI)) else Throw.
Lemma cnt_throw sep nb l : 0 <= nb -> (exists p, p ∈ l /\ ~ okv sep nb p.2) -> foldM (cntBody sep nb) l (0, replicate (Z.to_nat (nb + 1)) 0) = Throw.
Proof.
  intros H0 (q & Hq & Hn). assert (W : wp (foldM (cntBody sep nb) l (0, replicate (Z.to_nat (nb + 1)) 0)) (fun _ => False) True).
  { eapply wp_mono; [apply (wp_foldM _ (fun pre s => (forall p, p ∈ pre -> okv sep nb p.2) /\ zlen s.2 = nb + 1) _ _ (fun _ => False) True)|..]; [| | |done|done].
    - split; [intros p Hp; by apply elem_of_nil in Hp|]. cbn. rewrite zlen_replicate. lia.
    - intros pre p post [n rI] E (Ho & Hz). cbn [snd] in Hz. unfold cntBody. destruct (sep && (p.2 =? -1)) eqn:E1; [|destruct ((0 <=? p.2) && (p.2 <? nb)) eqn:E0]; [| |done].
      + cbn [wp]. split; [intros x [Hx|Hx%elem_of_list_singleton]%elem_of_app; [by apply Ho|subst; left; destruct sep; [split; [done|lia]|done]]|done].
      + destruct (zlook_lt rI (p.2 + 1)) as [x Hx]; [lia|]. rewrite (rd_ok _ _ _ Hx). cbn [bind]. rewrite wr_ok by lia. cbn [bind wp snd]. rewrite zlen_zset. split; [|done]. intros y [Hy|Hy%elem_of_list_singleton]%elem_of_app; [by apply Ho|subst; right; lia].
    - intros s (Ho & _). by apply Hn, Ho. }
  destruct (foldM _ _ _); cbn in W; done.
Qed.
Lemma rev_loops sep nb cells : 0 <= nb -> (forall p, p ∈ occ 0 cells -> okv sep nb p.2) ->
  exists n, foldM (cntBody sep nb) (occ 0 cells) (0, replicate (Z.to_nat (nb + 1)) 0) = Ok (n, 0 :: (zlen <$> (cof (occ 0 cells) <$> seqZ 0 nb))) /\
    forZ 1 (nb + 1) (fun k rI => let* x := rd rI k in let* y := rd rI (k - 1) in wr rI k (x + y)) (0 :: (zlen <$> (cof (occ 0 cells) <$> seqZ 0 nb))) = Ok (psums (zlen <$> (cells_of_node 0 cells <$> seqZ 0 nb))) /\
    forall body : list Z -> Z * Z -> res (list Z), (forall r p, okv sep nb p.2 -> body r p = if 0 <=? p.2 then (let* a := rd (psums (zlen <$> (cells_of_node 0 cells <$> seqZ 0 nb))) p.2 in let* b := rd (psums (zlen <$> (cells_of_node 0 cells <$> seqZ 0 nb))) (p.2 + 1) in let* q := findFree r a b in wr r q p.1) else Ok r) ->
      foldM body (occ 0 cells) (replicate (Z.to_nat n) (-1)) = Ok (concat (cells_of_node 0 cells <$> seqZ 0 nb)).
Proof.
  intros Hnb0 Ho. set (F := occ 0 cells) in *. assert (HF : forall i v, (i, v) ∈ F -> 0 <= i /\ v < nb).
  { intros i v Hin. pose proof (Ho _ Hin) as Hv. cbn in Hv. unfold F in Hin. apply occ_elem in Hin as (c & Hc & _). apply zlook_Some_lt in Hc as ?. split; [lia|]. destruct Hv as [[_ ?]|?]; lia. }
  assert (Hps : cof F <$> seqZ 0 nb = cells_of_node 0 cells <$> seqZ 0 nb) by (apply list_fmap_ext; intros j x _; apply cof_occ).
  destruct (count_loop nb F Hnb0 HF F) as (n & E1 & En); [done|]. exists n.
  assert (Hls : (fun v => zlen (cof F v)) <$> seqZ 0 nb = zlen <$> (cof F <$> seqZ 0 nb)) by (rewrite <- list_fmap_compose; done). rewrite Hls in E1, En.
  split; [|split].
  - rewrite <- E1. apply foldM_ext. intros [k rI] p Hp. pose proof (Ho p Hp) as Hv. unfold cntBody. destruct sep, (p.2 =? -1) eqn:E0; cbn [andb].
    1:{ replace (0 <=? p.2) with false by lia. done. }
    all: destruct Hv as [[? ?]|?]; try done; try lia; replace (0 <=? p.2) with true by lia; replace (p.2 <? nb) with true by lia; done.
  - rewrite <- Hps. apply (psum_loop nb F Hnb0). exact HF.
  - intros body Hb. rewrite <- Hps in Hb |- *. rewrite <- (slot_end nb F), En, <- (slot_start nb F). rewrite <- (fill_loop nb F Hnb0 HF F []); [|by rewrite app_nil_r]. apply foldM_ext. intros r p Hp. apply Hb. by apply Ho. all: exact HF.
Qed.
Lemma rev_sky cells nb : skyline (cells_of_node 0 cells <$> seqZ 0 nb) (concat (cells_of_node 0 cells <$> seqZ 0 nb)) (psums (zlen <$> (cells_of_node 0 cells <$> seqZ 0 nb))).
Proof. apply skyline_psums. Qed.
Lemma s_rev m cells nb : s_holds m cells -> coords_of (sg_coords m) nb ->
  (within nb cells -> exists r rI, S_getReverseNodalConnectivity m = Ok (r, rI) /\ skyline (cells_of_node 0 cells <$> seqZ 0 nb) r rI) /\ (~ within nb cells -> S_getReverseNodalConnectivity m = Throw).
Proof.
  intros H Hd. destruct (coords_nb _ _ Hd) as [_ Hnb0]. destruct Hd as (d & Hd & _ & _ & Hnt). unfold S_getReverseNodalConnectivity, S_checkFullyDefined. rewrite Hd, (s_conn m cells H), (s_num m cells H), (s_perCell m cells H), Hnt. cbn [bind]. rewrite (nodesIn_ok _ _ _ cells) by (by apply s_bounded).
  match goal with |- context [foldM ?f (occ 0 cells) (0, _)] => assert (Eb : forall s, foldM f (occ 0 cells) s = foldM (cntBody false nb) (occ 0 cells) s) end. { intros s. apply foldM_ext. intros [n rI] p _. done. }
  rewrite Eb. clear Eb. split; intros Hw.
  - destruct (rev_loops false nb cells Hnb0) as (n & -> & E2 & E3); [apply occ_all, within_okv, Hw|]. cbn [bind]. rewrite E2. cbn [bind]. rewrite (nodesIn_ok _ _ _ cells) by (by apply s_bounded). rewrite E3.
    + cbn [bind]. eexists _, _. split; [reflexivity|]. apply rev_sky.
    + intros r p Hp. destruct Hp as [[? _]|?]; [done|]. replace (0 <=? p.2) with true by lia. done.
  - rewrite cnt_throw; [done|done|]. destruct (decide (Exists (fun p : Z * Z => ~ (0 <= p.2 < nb)) (occ 0 cells))) as [Hx|Hx].
    + apply Exists_exists in Hx as (p & Hp & Hn). exists p. split; [done|]. intros [[? _]|?]; [done|]. by apply Hn.
    + exfalso. apply Hw, within_okv, occ_all. intros p Hp. right. destruct (decide (0 <= p.2 < nb)); [done|]. exfalso. apply Hx, Exists_exists. eauto.
Qed.
Lemma d_rev m cells nb : d_holds m cells -> coords_of (dg_coords m) nb ->
  (within_sep nb cells -> exists r rI, D_getReverseNodalConnectivity m = Ok (r, rI) /\ skyline (cells_of_node 0 cells <$> seqZ 0 nb) r rI) /\ (~ within_sep nb cells -> D_getReverseNodalConnectivity m = Throw).
Proof.
  intros H Hd. destruct (coords_nb _ _ Hd) as [_ Hnb0]. destruct Hd as (d & Hd & _ & _ & Hnt). destruct (d_data m cells H) as (conn & connI & E1 & E2 & _ & _ & En & _ & Eu & Hb1 & Hb2 & _). unfold D_getReverseNodalConnectivity. rewrite Hd, E1, E2, En, Hnt. cbn [bind]. rewrite (nodesIn_ok _ _ _ cells _ _ Hb2).
  match goal with |- context [foldM ?f (occ 0 cells) (0, _)] => assert (Eb : forall s, foldM f (occ 0 cells) s = foldM (cntBody true nb) (occ 0 cells) s) end. { intros s. apply foldM_ext. intros [n rI] p _. done. }
  rewrite Eb. clear Eb. split; intros Hw.
  - destruct (rev_loops true nb cells Hnb0) as (n & -> & E3 & E4); [apply occ_all, sep_okv, Hw|]. cbn [bind]. rewrite E3. cbn [bind]. rewrite (nodesIn_ok _ _ _ cells _ _ Hb1). rewrite E4.
    + cbn [bind]. eexists _, _. split; [reflexivity|]. apply rev_sky.
    + intros r p Hp. destruct Hp as [[_ ->]|?]; [done|]. replace (0 <=? p.2) with true by lia. replace (p.2 =? -1) with false by lia. done.
  - rewrite cnt_throw; [done|done|]. destruct (decide (Exists (fun p : Z * Z => ~ (p.2 = -1 \/ 0 <= p.2 < nb)) (occ 0 cells))) as [Hx|Hx].
    + apply Exists_exists in Hx as (p & Hp & Hn). exists p. split; [done|]. intros [[_ ?]|?]; apply Hn; tauto.
    + exfalso. apply Hw, sep_okv, occ_all. intros p Hp. unfold okv. destruct (decide (p.2 = -1 \/ 0 <= p.2 < nb)); [tauto|]. exfalso. apply Hx, Exists_exists. eauto.
Qed.

(** * Counts *)
Lemma s_effective m cells : s_holds m cells -> exists l, S_computeEffectiveNbOfNodesPerCell m = Ok (Some <$> l) /\ zlen l = zlen cells /\
  forall i (c : cell) k, cells @ i = Some c -> l @ i = Some k -> exists ns, NoDup ns /\ (forall v, v ∈ ns <-> v ∈ c.2) /\ zlen ns = k.
Proof.
  intros H. exists ((fun c : cell => zlen (remove_dups c.2)) <$> cells). split; [|split; [by rewrite zlen_fmap|]].
  - unfold S_computeEffectiveNbOfNodesPerCell, S_unchecked, ifthrow. assert (cm_dyn (sg_cm m) = false) as -> by apply H. rewrite (s_num m cells H), (s_perCell m cells H), (s_conn m cells H). cbn [bind]. rewrite alloc1 by apply zlen_nonneg. cbn [bind].
    rewrite <- (zlen_fmap (fun c : cell => zlen (remove_dups c.2)) cells). apply forZ_write. intros i v l Hi. rewrite zlook_fmap in Hi. destruct (cells @ i) as [c|] eqn:Hc; [|done]. injection Hi as <-.
    destruct (concat_at cells _ i c (s_len m cells H) Hc) as (? & ? & ? & E). rewrite span_list by lia. rewrite <- E. done.
  - intros i c k Hc Hk. rewrite zlook_fmap, Hc in Hk. injection Hk as <-. exists (remove_dups c.2). split; [apply NoDup_remove_dups|]. split; [|done]. intros v. by rewrite elem_of_remove_dups.
Qed.
Lemma d_effective m cells : d_holds m cells -> dg_coords m <> None -> exists l, D_computeEffectiveNbOfNodesPerCell m = Ok (Some <$> l) /\ zlen l = zlen cells /\
  forall i (c : cell) k, cells @ i = Some c -> l @ i = Some k -> exists ns, NoDup ns /\ (forall v, v ∈ ns <-> v ∈ nodes_of c) /\ zlen ns = k.
Proof.
  intros H Hd. set (f := fun c : cell => if cm_type (dg_cm m) =? NORM_POLYHED then List.filter (fun v => negb (v =? -1)) (remove_dups c.2) else remove_dups c.2). exists ((fun c : cell => zlen (f c)) <$> cells). split; [|split; [by rewrite zlen_fmap|]].
  - destruct (d_data m cells H) as (conn & connI & E1 & E2 & Hl & Hp & En & Ec & Eu & _ & _ & Hmo). unfold D_computeEffectiveNbOfNodesPerCell, D_checkConsistencyLight, checkMonotonic, ifthrow. destruct (dg_coords m) as [d|]; [|done]. rewrite Ec, (isMono_ok _ Hmo). cbn [bind negb].
    replace (zlen connI - 1) with (zlen cells) by lia. rewrite alloc1 by apply zlen_nonneg. cbn [bind]. rewrite <- (zlen_fmap (fun c : cell => zlen (f c)) cells). apply forZ_write. intros i v l Hi. rewrite zlook_fmap in Hi. destruct (cells @ i) as [c|] eqn:Hc; [|done]. injection Hi as <-.
    destruct (Hp i c Hc) as (a & b & Ea & Eb & ? & ? & ? & E). rewrite (rd_ok _ _ _ Ea), (rd_ok _ _ _ Eb). cbn [bind]. rewrite span_list by lia. rewrite <- E. cbn [bind]. unfold f. destruct (_ =? _); done.
  - intros i c k Hc Hk. rewrite zlook_fmap, Hc in Hk. injection Hk as <-. assert (Et : c.1 = cm_type (dg_cm m)). { destruct H as (_ & _ & H3 & _). apply H3. by eapply zlook_elem. } exists (f c). unfold f, nodes_of. rewrite Et. destruct (_ =? _); cbn [negb andb].
    + split; [apply filter_dups, NoDup_remove_dups|]. split; [|done]. intros v. rewrite !elem_of_list_In, !filter_In, <- !elem_of_list_In, elem_of_remove_dups. done.
    + split; [apply NoDup_remove_dups|]. split; [|done]. intros v. rewrite elem_of_remove_dups, !elem_of_list_In, filter_In. tauto.
Qed.
Lemma filter_true (l : list Z) : List.filter (fun _ => true) l = l.
Proof. induction l as [|v l IH]; [done|]. cbn [List.filter]. by rewrite IH. Qed.
Lemma pack_delta conn connI (cells : list cell) : zlen connI = zlen cells + 1 -> (forall i c, cells @ i = Some c -> pack conn connI i c.2) -> deltaShiftIndex (vec connI) = Ok (Some <$> ((fun c : cell => zlen c.2) <$> cells)).
Proof.
  intros Hl Hp. pose proof (zlen_nonneg cells). assert (Hnt : da_nt (vec connI) = zlen connI) by apply da_nt_vec. destruct (delta_ok (vec connI) eq_refl eq_refl) as (k & -> & Hk1 & Hk2); [lia|]. rewrite Hnt in Hk1. do 2 f_equal. cbn in Hk2.
  apply zlook_ext_lt; [rewrite zlen_fmap; lia|]. intros i Hi. rewrite zlook_fmap. destruct (zlook_lt cells i) as [c Hc]; [lia|]. rewrite Hc. destruct (Hp i c Hc) as (a & b & Ea & Eb & ? & ? & ? & E). cbn. rewrite E. unfold sub. rewrite zlen_take, zlen_drop. rewrite (Hk2 i a b Ea Eb). f_equal. lia.
Qed.
Lemma d_nbNodes m cells : d_holds m cells -> dg_coords m <> None -> D_computeNbOfNodesPerCell m = Ok (Some <$> ((fun c : cell => zlen (nodes_of c)) <$> cells)).
Proof.
  intros H Hd. destruct (d_data m cells H) as (conn & connI & E1 & E2 & Hl & Hp & En & Ec & Eu & _ & _ & Hmo). unfold D_computeNbOfNodesPerCell, D_checkConsistencyLight, checkMonotonic, ifthrow. destruct (dg_coords m) as [d|]; [|done]. rewrite Ec, (isMono_ok _ Hmo). cbn [bind negb].
  assert (Et : forall i c, cells @ i = Some c -> c.1 = cm_type (dg_cm m)). { intros i c Hi. destruct H as (_ & _ & H3 & _). apply H3. by eapply zlook_elem. }
  destruct (cm_type (dg_cm m) =? NORM_POLYHED) eqn:E0; cbn [negb].
  - replace (zlen connI - 1) with (zlen cells) by lia. rewrite alloc1 by apply zlen_nonneg. cbn [bind]. rewrite <- (zlen_fmap (fun c : cell => zlen (nodes_of c)) cells). apply forZ_write. intros i v l Hi. rewrite zlook_fmap in Hi. destruct (cells @ i) as [c|] eqn:Hc; [|done]. injection Hi as <-.
    destruct (Hp i c Hc) as (a & b & Ea & Eb & ? & ? & ? & E). rewrite (rd_ok _ _ _ Ea), (rd_ok _ _ _ Eb). cbn [bind]. rewrite countSep_ok by lia. cbn [bind]. f_equal. unfold nodes_of. rewrite (Et i c Hc), E0. cbn [andb]. rewrite <- E. pose proof (f_equal zlen E) as El. unfold sub in El. rewrite zlen_take, zlen_drop in El. lia.
  - rewrite (pack_delta conn connI cells Hl Hp). do 2 f_equal. apply list_fmap_ext. intros i c Hi. assert (cells @ Z.of_nat i = Some c) as Hc by (by rewrite zlook_nat). unfold nodes_of. rewrite (Et _ c Hc), E0. cbn [andb negb]. by rewrite filter_true.
Qed.
Lemma count_faces fs : fs <> [] -> (forall f, f ∈ fs -> -1 ∉ f) -> zlen (with_separators fs) - zlen (List.filter (fun v => negb (v =? -1)) (with_separators fs)) + 1 = zlen fs.
Proof.
  assert (F : forall f : list Z, -1 ∉ f -> List.filter (fun v => negb (v =? -1)) f = f).
  { induction f as [|v f IH]; intros Hn; [done|]. cbn [List.filter]. destruct (Z.eqb_spec v (-1)) as [->|]; [exfalso; apply Hn; left|]. cbn [negb]. rewrite IH; [done|]. intros ?. apply Hn. by right. }
  destruct fs as [|f r]; [done|]. intros _ Hf. cbn [with_separators]. rewrite List.filter_app, !zlen_app, zlen_cons, (F f) by (apply Hf; left).
  enough (G : zlen (concat ((fun g : list Z => -1 :: g) <$> r)) - zlen (List.filter (fun v => negb (v =? -1)) (concat ((fun g : list Z => -1 :: g) <$> r))) = zlen r) by lia.
  assert (Hr : forall g, g ∈ r -> -1 ∉ g) by (intros g Hg; apply Hf; by right). clear Hf. induction r as [|g r IH]; [done|]. rewrite fmap_cons. cbn [concat]. rewrite List.filter_app, !zlen_app. cbn [List.filter Z.eqb Pos.eqb negb]. rewrite (F g) by (apply Hr; left). rewrite !zlen_cons. specialize (IH ltac:(intros h Hh; apply Hr; by right)). lia.
Qed.
Lemma d_nbFaces m cells : d_holds m cells -> dg_coords m <> None -> exists l, D_computeNbOfFacesPerCell m = Ok (Some <$> l) /\ zlen l = zlen cells /\
  forall i (c : cell) k, cells @ i = Some c -> l @ i = Some k ->
    (c.1 = NORM_POLYHED -> forall fs, fs <> [] -> (forall f, f ∈ fs -> -1 ∉ f) -> c.2 = with_separators fs -> k = zlen fs) /\ (c.1 = NORM_QPOLYG -> k = zlen c.2 / 2) /\ (c.1 <> NORM_POLYHED -> c.1 <> NORM_QPOLYG -> k = zlen c.2).
Proof.
  intros H Hd. destruct (d_data m cells H) as (conn & connI & E1 & E2 & Hl & Hp & En & Ec & Eu & _ & _ & Hmo). unfold D_computeNbOfFacesPerCell, D_checkConsistencyLight, checkMonotonic, ifthrow. destruct (dg_coords m) as [d|]; [|done]. rewrite Ec, (isMono_ok _ Hmo). cbn [bind negb].
  assert (Et : forall i c, cells @ i = Some c -> c.1 = cm_type (dg_cm m)). { intros i c Hi. destruct H as (_ & _ & H3 & _). apply H3. by eapply zlook_elem. }
  destruct (Z.eqb_spec (cm_type (dg_cm m)) NORM_POLYHED) as [E0|E0]; cbn [negb andb]; [|destruct (Z.eqb_spec (cm_type (dg_cm m)) NORM_QPOLYG) as [E3|E3]; cbn [negb]].
  - rewrite E0. change (NORM_POLYHED =? NORM_QPOLYG) with false. cbn [negb andb]. replace (zlen connI - 1) with (zlen cells) by lia. rewrite alloc1 by apply zlen_nonneg. cbn [bind].
    set (h := fun c : cell => zlen c.2 - zlen (List.filter (fun v => negb (v =? -1)) c.2) + 1). exists (h <$> cells). split; [|split; [by rewrite zlen_fmap|]].
    + rewrite <- (zlen_fmap h cells). apply forZ_write. intros i v l Hi. rewrite zlook_fmap in Hi. destruct (cells @ i) as [c|] eqn:Hc; [|done]. injection Hi as <-.
      destruct (Hp i c Hc) as (a & b & Ea & Eb & ? & ? & ? & E). rewrite (rd_ok _ _ _ Ea), (rd_ok _ _ _ Eb). cbn [bind]. rewrite countSep_ok by lia. cbn [bind]. unfold h. rewrite <- E. done.
    + intros i c k Hc Hk. rewrite zlook_fmap, Hc in Hk. injection Hk as <-. rewrite (Et i c Hc), E0. split; [|split; [done|tauto]]. intros _ fs Hne Hfs Efs. unfold h. rewrite Efs. by apply count_faces.
  - rewrite (pack_delta conn connI cells Hl Hp). cbn [bind]. rewrite initialised_ok. cbn [bind]. eexists. split; [reflexivity|]. split; [by rewrite !zlen_fmap|]. intros i c k Hc Hk. rewrite !zlook_fmap, Hc in Hk. cbn in Hk. injection Hk as <-. rewrite (Et i c Hc), E3.
    split; [done|]. split; [|done]. intros _. rewrite Z.quot_div_nonneg; [done|apply zlen_nonneg|lia].
  - rewrite (pack_delta conn connI cells Hl Hp). eexists. split; [reflexivity|]. split; [by rewrite !zlen_fmap|]. intros i c k Hc Hk. rewrite !zlook_fmap, Hc in Hk. cbn in Hk. injection Hk as <-. rewrite (Et i c Hc). split; [done|]. split; done.
Qed.
Lemma wp_cases {A} (r : res A) (P : Prop) (Q : A -> Prop) : wp r (fun x => P /\ Q x) (~ P) -> (P -> exists x, r = Ok x /\ Q x) /\ (~ P -> r = Throw).
Proof. destruct r; cbn; try done; intros W; (split; [intros HP|intros HN]); try tauto. destruct W. eauto. Qed.
Lemma d_num_holds m cells : d_holds m cells -> D_getNumberOfCells m = Ok (zlen cells).
Proof. intros H. destruct (d_data m cells H) as (conn & connI & _ & _ & _ & _ & En & _). done. Qed.
