From Coq Require Import QArith ZifyBool ZifyNat.
From stdpp Require Import gmap.
From Verif Require Import CellModel Base DataArray ArrLib FillLib SlicesSpec SlicesModel SlicesProofs SearchSpec SearchModel SearchProofs IndexSpec IndexModel IndexProofs IndexProofs2 IndexProofs4 IndexProofs3 SkySpec SkyModel SkyProofs SkyProofs4 CellTable CellProofs5 DsProofs6 GlModel GlProofs2 UmModel UmSpec UmProofs UmProofs2 UmProofs3 UmProofs4 UmProofs8 UmProofs9 UmProofs10 MgSpec GtModel GtSpec GtProofs GtProofs2 GtProofs4 GtProofs5.
Local Open Scope Z_scope.

(** * To a mesh of the general class *)
Lemma concat_pk_snoc (pre : list cell) c : concat (pk <$> (pre ++ [c])) = concat (pk <$> pre) ++ c.1 :: c.2.
Proof. rewrite fmap_app, concat_app, list_fmap_singleton. cbn [concat]. by rewrite app_nil_r. Qed.
Lemma psums_pk (pre : list cell) c : psums (zlen <$> (pk <$> (pre ++ [c]))) = psums (zlen <$> (pk <$> pre)) ++ [zlen (concat (pk <$> pre)) + (1 + zlen c.2)].
Proof. rewrite !fmap_app, !list_fmap_singleton, psums_snoc_eq, zlen_concat. rewrite zlen_pk. do 3 f_equal; lia. Qed.
Lemma psums_pk_end (pre : list cell) : psums (zlen <$> (pk <$> pre)) @ zlen pre = Some (zlen (concat (pk <$> pre))).
Proof. rewrite zlen_concat. pose proof (psums_end (zlen <$> (pk <$> pre))) as Hx. rewrite !zlen_fmap in Hx. done. Qed.
Lemma room_pk (all pre : list cell) c post : all = pre ++ c :: post -> zlen (concat (pk <$> pre)) + 1 + zlen c.2 <= zlen (concat (pk <$> all)) /\ zlen pre + 1 <= zlen all.
Proof. intros ->. rewrite fmap_app, fmap_cons, concat_app. cbn [concat]. rewrite !zlen_app, !zlen_cons, zlen_pk. pose proof (zlen_nonneg (concat (pk <$> post))). pose proof (zlen_nonneg post). lia. Qed.
Lemma built (u : umesh) (cells : list cell) : setConnectivity u (Some (concat (pk <$> cells))) (Some (psums (zlen <$> (pk <$> cells)))) true =
  Ok (UM (um_dim u) (um_coords u) (Some (concat (pk <$> cells))) (Some (psums (zlen <$> (pk <$> cells)))) (typesOf cells)).
Proof. unfold setConnectivity. rewrite (types_ok cells); [done|]. apply skyline_psums. Qed.
Lemma built_ok d c (cells : list cell) : let u := UM d c (Some (concat (pk <$> cells))) (Some (psums (zlen <$> (pk <$> cells)))) (typesOf cells) in stores u cells /\ typed u cells.
Proof. split; [eexists _, _; split; [done|]; split; [done|]; apply skyline_psums|]. apply typesOf_ok. Qed.
Lemma rangeL_psums (cells : list cell) k : (forall c, c ∈ cells -> zlen c.2 = k) -> rangeL 0 (k + 1) (zlen cells + 1) = psums (zlen <$> (pk <$> cells)).
Proof.
  intros Hk. pose proof (zlen_nonneg cells). destruct (psums_ok (zlen <$> (pk <$> cells))) as (Hl & Hp). rewrite !zlen_fmap in Hl, Hp. apply zlook_ext_lt; [rewrite rangeL_len by lia; lia|]. intros i Hi. rewrite rangeL_len in Hi by lia. rewrite rangeL_look by lia. rewrite Hp by lia. f_equal.
  rewrite <- !fmap_take, <- zlen_concat, concat_pk, (concat_same _ k). - assert (zlen (take (Z.to_nat i) cells) = i) as -> by (rewrite zlen_take; lia). lia. - intros c Hc. apply Hk. rewrite <- (take_drop (Z.to_nat i) cells). apply elem_of_app. by left.
Qed.
Lemma s_build m cells : s_holds m cells -> exists u, S_buildUnstructured m = Ok u /\ stores u cells /\ typed u cells /\ um_coords u = sg_coords m /\ um_dim u = cm_dim (sg_cm m).
Proof.
  intros H. pose proof (s_k m cells H) as Hk. pose proof (s_len m cells H) as Hlen. pose proof (s_conn m cells H) as Ec. pose proof H as (_ & _ & Hall & _). set (k := cm_nbpts (sg_cm m)) in *.
  unfold S_buildUnstructured, S_unchecked. rewrite Ec, (s_num m cells H), (s_perCell m cells H). cbn [bind]. fold k. pose proof (zlen_nonneg cells). rewrite alloc1 by nia. cbn [bind].
  assert (HN : zlen (concat (pk <$> cells)) = zlen cells * (k + 1)) by (rewrite concat_pk, (concat_same _ k Hlen); lia).
  set (st := fun pre : list cell => ((Some <$> concat (pk <$> pre)) ++ malloc Z (zlen cells * (k + 1) - zlen (concat (pk <$> pre))), zlen (concat (pk <$> pre)))).
  replace (malloc Z (zlen cells * (k + 1)), 0) with (st []) by (unfold st; change (concat _) with (@nil Z); change (zlen (@nil Z)) with 0; rewrite Z.sub_0_r; done).
  match goal with |- context [forZ 0 (zlen cells) ?body (st [])] => assert (forZ 0 (zlen cells) body (st []) = Ok (st cells)) as -> end.
  { apply forZ_blocks; [done|]. intros pre c post E. assert (Hcc : cells @ zlen pre = Some c) by (rewrite E; apply split_at). destruct (concat_at cells k _ c Hlen Hcc) as (B1 & B2 & B3 & B4). assert (Hin : c ∈ cells) by (by eapply zlook_elem). destruct (Hall c Hin) as (Et & El).
    destruct (room_pk cells pre c post E) as (R1 & R2). pose proof (f_equal zlen B4) as L4. unfold st at 1. cbn beta iota. rewrite wrc_fill by lia. cbn [bind]. rewrite copyc_fill; [|lia|lia|lia|fold k in El; lia|rewrite zlen_app; unfold zlen; simpl; lia]. cbn [bind]. rewrite <- B4, <- Et. unfold st. f_equal. rewrite concat_pk_snoc, zlen_app, zlen_cons, <- app_assoc. fold k in El. f_equal; [|lia]. cbn [app]. f_equal. f_equal. lia. }
  unfold st. cbn beta iota. cbn [bind]. rewrite HN, Z.sub_diag. change (malloc Z 0) with (@nil (option Z)). rewrite app_nil_r.
  assert (Hv : valid_range 0 ((zlen cells + 1) * (k + 1)) (k + 1)). { unfold valid_range. repeat split; try nia. }
  destruct (range_rangeL _ _ _ Hv) as (n & Hn & Hb & _ & ->). assert (n = zlen cells + 1) as ->.
  { pose proof (Hb (zlen cells) ltac:(lia)) as Q1. pose proof (Hb (zlen cells + 1) ltac:(lia)) as Q2. unfold before in *. replace (0 <? k + 1) with true in * by lia. nia. }
  cbn [bind]. rewrite !initialised_ok. cbn [bind]. rewrite (rangeL_psums cells k Hlen), built. eexists. split; [done|]. destruct (built_ok (cm_dim (sg_cm m)) (sg_coords m) cells) as (S1 & S2). done.
Qed.
Lemma d_offset (m : dgt) (cells : list cell) conn connI : zlen connI = zlen cells + 1 -> (forall i c, cells @ i = Some c -> pack conn connI i c.2) ->
  forall f, connI @ 0 = Some f -> forall pre post, cells = pre ++ post -> connI @ zlen pre = Some (f + zlen (concat (snd <$> pre))).
Proof.
  intros Hl Hp f Hf. induction pre as [|c pre IH] using rev_ind; intros post E; [change (zlen (@nil cell)) with 0; rewrite Hf; f_equal; change (concat _) with (@nil Z); change (zlen (@nil Z)) with 0; lia|].
  rewrite <- app_assoc in E. pose proof (IH _ E) as Ha. assert (Hc : cells @ zlen pre = Some c) by (rewrite E; apply split_at). destruct (Hp _ _ Hc) as (a & b & E1 & E2 & H1 & H2 & H3 & H4). rewrite zlen_app. change (zlen [c]) with 1. rewrite E2, concat_snd, zlen_app. assert (a = f + zlen (concat (snd <$> pre))) as -> by congruence. f_equal. pose proof (f_equal zlen H4) as L.
  destruct (sub_split conn (f + zlen (concat (snd <$> pre))) b) as (_ & _ & _ & _ & Q); [lia|lia|]. lia.
Qed.
Lemma d_total (m : dgt) (cells : list cell) conn connI : zlen connI = zlen cells + 1 -> (forall i c, cells @ i = Some c -> pack conn connI i c.2) -> (forall f, connI @ 0 = Some f -> 0 <= f <= zlen conn) ->
  forall pre post, cells = pre ++ post -> zlen (concat (snd <$> pre)) <= zlen conn.
Proof.
  intros Hl Hp H0 pre post E. destruct (connI @ 0) as [f|] eqn:Ef. 2: { pose proof (zlen_nonneg cells). destruct (zlook_lt connI 0) as (x & Hx); [lia|]. congruence. }
  pose proof (H0 f eq_refl). destruct pre as [|c pre _] using rev_ind; [change (concat _) with (@nil Z); apply zlen_nonneg|]. pose proof (d_offset m cells conn connI Hl Hp f Ef _ _ E) as Ho. rewrite zlen_app in Ho. change (zlen [c]) with 1 in Ho.
  assert (Hc : cells @ zlen pre = Some c). { rewrite E, <- app_assoc. apply split_at. } destruct (Hp _ _ Hc) as (a & b & E1 & E2 & H1 & H2 & H3 & H4). assert (b = f + zlen (concat (snd <$> (pre ++ [c])))) by congruence. lia.
Qed.
Lemma initialised_hole {A} (l : list A) n : 0 < n -> initialised ((Some <$> l) ++ malloc A n) = UB.
Proof. intros Hn. unfold initialised. rewrite forallb_app. unfold malloc. destruct (Z.to_nat n) as [|k] eqn:E; [lia|]. cbn. by rewrite andb_false_r. Qed.
Lemma d_build_gen m cells : d_holds m cells -> exists conn, dg_conn m = Some conn /\ zlen (concat (snd <$> cells)) <= zlen conn /\
  D_buildUnstructured m = if zlen conn =? zlen (concat (snd <$> cells)) then Ok (UM (cm_dim (dg_cm m)) (dg_coords m) (Some (concat (pk <$> cells))) (Some (psums (zlen <$> (pk <$> cells)))) (typesOf cells)) else UB.
Proof.
  intros H. destruct (d_data m cells H) as (conn & connI & E1 & E2 & Hl & Hp & En & _ & Hu & _). exists conn. split; [done|].
  pose proof H as (_ & _ & Hall & conn' & connI' & f & E1' & E2' & _ & _ & Hf0 & Hf1 & _). rewrite E1 in E1'. rewrite E2 in E2'. injection E1' as <-. injection E2' as <-.
  assert (H0 : forall g, connI @ 0 = Some g -> 0 <= g <= zlen conn) by (intros g Hg; rewrite Hf0 in Hg; by injection Hg as <-). pose proof (d_total m cells conn connI Hl Hp H0) as Htot.
  split; [apply (Htot cells []); by rewrite app_nil_r|]. unfold D_buildUnstructured. rewrite Hu, En. cbn [bind]. pose proof (zlen_nonneg cells). pose proof (zlen_nonneg conn). rewrite alloc1 by lia. cbn [bind]. rewrite alloc1 by lia. cbn [bind].
  replace (malloc Z (zlen cells + 1)) with ((Some <$> @nil Z) ++ malloc Z (zlen cells + 1)) by done. rewrite (wrc_fill []) by (done || lia). cbn [bind app]. set (N := zlen cells + zlen conn).
  set (st := fun pre : list cell => ((Some <$> concat (pk <$> pre)) ++ malloc Z (N - zlen (concat (pk <$> pre))), zlen (concat (pk <$> pre)), (Some <$> psums (zlen <$> (pk <$> pre))) ++ malloc Z (zlen cells - zlen pre))).
  replace (malloc Z N, 0, (Some <$> [0]) ++ malloc Z (zlen cells + 1 - 1)) with (st []). 2: { unfold st. change (psums _) with [0]. change (concat _) with (@nil Z). change (zlen (@nil Z)) with 0. change (zlen (@nil cell)) with 0. f_equal; [f_equal; change ((Some <$> @nil Z) ++ ?x) with x; f_equal; lia|f_equal; f_equal; lia]. }
  match goal with |- context [forZ 0 (zlen cells) ?body (st [])] => assert (forZ 0 (zlen cells) body (st []) = Ok (st cells)) as -> end.
  { apply forZ_blocks; [done|]. intros pre c post E. assert (Hcc : cells @ zlen pre = Some c) by (rewrite E; apply split_at). destruct (Hp _ _ Hcc) as (a & b & Ea & Eb & B1 & B2 & B3 & B4). assert (Hin : c ∈ cells) by (by eapply zlook_elem). pose proof (Hall c Hin) as Et.
    destruct (room_pk cells pre c post E) as (R1 & R2). assert (L : zlen c.2 = b - a). { rewrite B4. destruct (sub_split conn a b) as (_ & _ & _ & _ & Q); [lia|lia|done]. }
    assert (R3 : zlen (concat (pk <$> pre)) + 1 + zlen c.2 <= N). { assert (T : zlen (concat (snd <$> (pre ++ [c]))) <= zlen conn) by (apply (Htot _ post); rewrite <- app_assoc; done). rewrite concat_snd, zlen_app in T. rewrite concat_pk. unfold N. lia. }
    unfold st at 1. cbn beta iota. rewrite (rd_ok _ _ _ Eb), (rd_ok _ _ _ Ea). cbn [bind]. replace (0 <=? b - a) with true by lia. rewrite wrc_fill by lia. cbn [bind]. rewrite copyc_fill; [|lia|lia|lia|lia|rewrite zlen_app; unfold zlen; simpl; lia]. cbn [bind].
    rewrite (rdc_fill _ _ _ _ (psums_pk_end pre)). cbn [bind]. rewrite wrc_fill; [|lia|rewrite psums_len, !zlen_fmap; done]. cbn [bind]. rewrite <- B4, <- Et. unfold st. f_equal. rewrite concat_pk_snoc, psums_pk, !zlen_app, zlen_cons, <- app_assoc. change (zlen [c]) with 1. f_equal; [f_equal; [|lia]|].
    - cbn [app]. f_equal. f_equal. lia.
    - f_equal; [do 3 f_equal; lia|f_equal; lia]. }
  unfold st. cbn beta iota. cbn [bind]. rewrite Z.sub_diag. change (malloc Z 0) with (@nil (option Z)). rewrite app_nil_r. assert (N - zlen (concat (pk <$> cells)) = zlen conn - zlen (concat (snd <$> cells))) as -> by (rewrite concat_pk; unfold N; lia).
  destruct (Z.eqb_spec (zlen conn) (zlen (concat (snd <$> cells)))) as [Eq|Ne].
  - rewrite Eq, Z.sub_diag. change (malloc Z 0) with (@nil (option Z)). rewrite app_nil_r, !initialised_ok. cbn [bind]. rewrite built. done.
  - rewrite initialised_hole; [done|]. pose proof (Htot cells [] ltac:(by rewrite app_nil_r)). lia.
Qed.
Lemma d_build m cells : d_packed m cells -> exists u, D_buildUnstructured m = Ok u /\ stores u cells /\ typed u cells /\ um_coords u = dg_coords m /\ um_dim u = cm_dim (dg_cm m).
Proof.
  intros H. destruct (d_build_gen m cells (packed_holds m cells H)) as (conn & E & _ & ->). destruct H as (_ & _ & _ & conn' & connI & E1 & E2 & (-> & _)). rewrite E in E1. injection E1 as ->. rewrite Z.eqb_refl. eexists. split; [done|]. destruct (built_ok (cm_dim (dg_cm m)) (dg_coords m) cells) as (S1 & S2). done.
Qed.
Lemma d_build_hole m cells conn : d_holds m cells -> dg_conn m = Some conn -> zlen (concat (snd <$> cells)) < zlen conn -> D_buildUnstructured m = UB.
Proof. intros H E Hlt. destruct (d_build_gen m cells H) as (conn' & E' & _ & ->). assert (conn' = conn) as -> by congruence. replace (_ =? _) with false by lia. done. Qed.

(** * Several meshes on the same nodes *)
Section AGG.
Context (all : list cell).
Let N := zlen (concat (pk <$> all)).
Let M := zlen all.
Definition agg_st (pre : list cell) : list (option Z) * Z * list (option Z) * Z := ((Some <$> concat (pk <$> pre)) ++ malloc Z (N - zlen (concat (pk <$> pre))), zlen (concat (pk <$> pre)), (Some <$> psums (zlen <$> (pk <$> pre))) ++ malloc Z (M - zlen pre), zlen pre).
Lemma agg_loop t cin lo hi pre cs post : all = pre ++ cs ++ post -> bounded cin lo hi 0 cs -> (forall c, c ∈ cs -> c.1 = t) ->
  forZ 0 (zlen cs) (fun i '(conn, c, connI, ci) =>
            let* conn := wrc conn c t in
            let* a := lo i in let* b := hi i in
            let* conn := copyc cin a b conn (c + 1) in
            let* q := rdc connI ci in
            let* connI := wrc connI (ci + 1) (q + (b - a) + 1) in
            Ok (conn, c + 1 + (b - a), connI, ci + 1)) (agg_st pre) = Ok (agg_st (pre ++ cs)).
Proof using Type.
  intros E Hb Ht. rewrite <- (app_nil_r pre) at 1. apply (forZ_blocks _ (fun p => agg_st (pre ++ p))); [done|]. intros p c q Ecs. assert (Hcc : cs @ zlen p = Some c) by (rewrite Ecs; apply split_at). destruct (Hb _ _ Hcc) as (a & b & Ea & Eb & B1 & B2 & B3). rewrite Z.add_0_l in Ea, Eb.
  assert (L : zlen c.2 = b - a). { rewrite B3. destruct (sub_split cin a b) as (_ & _ & _ & _ & Q); [lia|lia|done]. }
  destruct (room_pk all (pre ++ p) c (q ++ post)) as (R1 & R2). { rewrite E, Ecs, <- !app_assoc. done. } fold N in R1. fold M in R2. rewrite app_assoc. generalize dependent (pre ++ p). intros P R1 R2.
  unfold agg_st at 1. cbn beta iota. rewrite wrc_fill by lia. cbn [bind]. rewrite Ea, Eb. cbn [bind]. rewrite copyc_fill; [|lia|lia|lia|lia|rewrite zlen_app; unfold zlen; simpl; lia]. cbn [bind]. rewrite (rdc_fill _ _ _ _ (psums_pk_end P)). cbn [bind].
  rewrite wrc_fill; [|lia|rewrite psums_len, !zlen_fmap; done]. cbn [bind]. rewrite <- B3, <- (Ht c) by (by eapply zlook_elem). unfold agg_st. f_equal. rewrite concat_pk_snoc, psums_pk, !zlen_app, zlen_cons, <- app_assoc. change (zlen [c]) with 1. f_equal; f_equal; [f_equal; [|lia]|].
  - cbn [app]. f_equal. f_equal. lia.
  - f_equal; [do 3 f_equal; lia|f_equal; lia].
Qed.
End AGG.
Lemma g_data g cells : g_holds g cells -> G_getNumberOfCells g = Ok (zlen cells) /\ (forall c, c ∈ cells -> c.1 = cm_type (G_cm g)) /\ exists cin lo hi, G_conn g = Some cin /\ zlen cin = zlen (concat (snd <$> cells)) /\ bounded cin lo hi 0 cells /\
  forall St (body : (Z -> res Z) -> (Z -> res Z) -> res St),
    match g with inl s => let* k := S_getNumberOfNodesPerCell s in body (sLo k) (sHi k) | inr d => match dg_connI d with None => UB | Some ciin => body (dLo ciin) (dHi ciin) end end = body lo hi.
Proof.
  destruct g as [m|m]; cbn [g_holds G_getNumberOfCells G_cm G_conn]; intros H.
  - split; [by apply s_num|]. split; [intros c Hc; by apply H|]. eexists _, _, _. split; [by apply s_conn|]. split; [done|]. split; [by apply s_bounded|]. intros St body. rewrite (s_perCell m cells H). done.
  - split; [by apply d_num_holds, packed_holds|]. split; [apply H|]. destruct (d_data m cells (packed_holds m cells H)) as (conn & connI & E1 & E2 & _ & _ & _ & _ & _ & Hb & _). exists conn, (dLo connI), (dHi connI). split; [done|]. split; [|split; [done|]; intros St body; by rewrite E2].
    destruct H as (_ & _ & _ & conn' & connI' & E1' & _ & (-> & _)). rewrite E1 in E1'. injection E1' as ->. done.
Qed.
Section AGGREGATE.
Context (same : option (da Q) -> option (da Q) -> bool) (first : sgt + dgt) (parts : list (sgt + dgt)) (cellss : list (list cell)) (H : Forall2 g_holds parts cellss).
Let okp (g : sgt + dgt) : Prop := cm_dim (G_cm g) = cm_dim (G_cm first) /\ same (G_coords g) (G_coords first) = true.
Let size_body := (fun '(nbOfCells, connSize) g =>
      throw_if negb (cm_dim (G_cm g) =? cm_dim (G_cm first)) >>>
      throw_if negb (same (G_coords g) (G_coords first)) >>>
      let* n := G_getNumberOfCells g in
      match G_conn g with None => Throw | Some c => Ok (nbOfCells + n, connSize + zlen c) end) : Z * Z -> sgt + dgt -> res (Z * Z).
Lemma agg_sizes : (forall g, g ∈ parts -> okp g) -> foldM size_body parts (0, 0) = Ok (zlen (concat cellss), zlen (concat (snd <$> concat cellss))).
Proof using All.
  intros Hok. set (st := fun cs : list (list cell) => (zlen (concat cs), zlen (concat (snd <$> concat cs)))). change (0, 0) with (st []). change (foldM size_body parts (st []) = Ok (st cellss)). apply (foldM_blocks _ (fun g cs => g_holds g cs /\ okp g)).
  - apply Forall2_same_length_lookup. pose proof H as Hl. apply Forall2_same_length_lookup in Hl as (Hl1 & Hl2). split; [done|]. intros i g cs Hg Hc. split; [by eapply Hl2|]. apply Hok. by eapply elem_of_list_lookup_2.
  - intros pre g cs post _ (Hg & Hd & Hs). unfold st, size_body. rewrite Hd, Z.eqb_refl, Hs. cbn [negb]. unfold ifthrow. destruct (g_data g cs Hg) as (-> & _ & cin & lo & hi & -> & -> & _). cbn [bind]. rewrite concat_snoc, fmap_app, concat_app, !zlen_app. done.
Qed.
Lemma agg_bad : (exists g, g ∈ parts /\ ~ okp g) -> forall s, foldM size_body parts s = Throw.
Proof using All.
  induction H as [|g cs ps css Hg Hr IH]; intros (x & Hx & Hb) [n l]; [inversion Hx|]. cbn [foldM]. unfold size_body at 1. unfold ifthrow. destruct (negb (cm_dim (G_cm g) =? cm_dim (G_cm first))) eqn:Ed; [done|]. destruct (negb (same (G_coords g) (G_coords first))) eqn:Es; [done|].
  destruct (g_data g cs Hg) as (-> & _ & cin & lo & hi & -> & _). cbn [bind]. apply (IH Hr). exists x. split; [|done]. apply elem_of_cons in Hx as [->|Hx]; [|done]. destruct Hb. unfold okp. split; [lia|]. by destruct (same _ _).
Qed.
End AGGREGATE.
Lemma agg_ok same first rest cellss : Forall2 g_holds (first :: rest) cellss ->
  ((forall g, g ∈ rest -> cm_dim (G_cm g) = cm_dim (G_cm first) /\ same (G_coords g) (G_coords first) = true) -> same (G_coords first) (G_coords first) = true ->
    exists u, AggregateOnSameCoordsToUMesh same (first :: rest) = Ok u /\ stores u (concat cellss) /\ typed u (concat cellss) /\ um_coords u = G_coords first /\ um_dim u = cm_dim (G_cm first)) /\
  ((exists g, g ∈ rest /\ (cm_dim (G_cm g) <> cm_dim (G_cm first) \/ same (G_coords g) (G_coords first) = false)) -> AggregateOnSameCoordsToUMesh same (first :: rest) = Throw).
Proof.
  intros H. split.
  - intros Hok Hs. unfold AggregateOnSameCoordsToUMesh. rewrite (agg_sizes same first _ cellss H) by (intros g [->|Hg]%elem_of_cons; [split; [done|exact Hs]|by apply Hok]). cbn [bind]. set (all := concat cellss). pose proof (zlen_nonneg all). pose proof (zlen_nonneg (concat (snd <$> all))).
    rewrite alloc1 by lia. cbn [bind]. rewrite alloc1 by lia. cbn [bind]. replace (malloc Z (zlen all + 1)) with ((Some <$> @nil Z) ++ malloc Z (zlen all + 1)) by done. rewrite (wrc_fill []) by (done || lia). cbn [bind app].
    replace (malloc Z (zlen (concat (snd <$> all)) + zlen all), 0, (Some <$> [0]) ++ malloc Z (zlen all + 1 - 1), 0) with (agg_st all []).
    2: { unfold agg_st. change (psums _) with [0]. rewrite concat_pk. change (zlen (@nil cell)) with 0. change (pk <$> []) with (@nil (list Z)). change (concat (@nil (list Z))) with (@nil Z). change (zlen (@nil Z)) with 0. f_equal. f_equal; [f_equal; change ((Some <$> @nil Z) ++ ?x) with x; f_equal; lia|f_equal; f_equal; lia]. }
    match goal with |- context [foldM ?body (first :: rest) (agg_st all [])] => assert (foldM body (first :: rest) (agg_st all []) = Ok (agg_st all all)) as -> end.
    { apply (foldM_blocks _ g_holds (fun cs => agg_st all (concat cs)) _ cellss H). intros pre g cs post E Hg. rewrite concat_snoc. destruct (g_data g cs Hg) as (En & Ht & cin & lo & hi & Ec & _ & Hb & Hm).
      unfold agg_st at 1. cbn beta iota. rewrite En, Ec. cbn [bind]. etransitivity; [exact (Hm _ (fun lo hi => forZ 0 (zlen cs) (fun i '(conn, c, connI, ci) =>
            let* conn := wrc conn c (cm_type (G_cm g)) in
            let* a := lo i in let* b := hi i in
            let* conn := copyc cin a b conn (c + 1) in
            let* q := rdc connI ci in
            let* connI := wrc connI (ci + 1) (q + (b - a) + 1) in
            Ok (conn, c + 1 + (b - a), connI, ci + 1)) (agg_st all (concat pre))))|]. apply (agg_loop all (cm_type (G_cm g)) cin lo hi (concat pre) cs (concat post)); [|done|done]. unfold all. rewrite E, concat_app. done. }
    unfold agg_st. cbn beta iota. cbn [bind]. rewrite !Z.sub_diag. change (malloc Z 0) with (@nil (option Z)). rewrite !app_nil_r, !initialised_ok. cbn [bind]. rewrite built. eexists. split; [done|]. destruct (built_ok (cm_dim (G_cm first)) (G_coords first) all) as (S1 & S2). done.
  - intros (g & Hg & Hb). unfold AggregateOnSameCoordsToUMesh. rewrite (agg_bad same first _ cellss H); [done|]. exists g. split; [by right|]. intros (A & B). destruct Hb as [Hb|Hb]; [done|]. rewrite B in Hb. done.
Qed.
