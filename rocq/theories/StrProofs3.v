From Verif Require Import Base DataArray ArrLib FillLib RenumProofs IndexProofs IndexProofs2 IndexProofs4 IndexProofs5 LayoutProofs2 SearchSpec IndexSpec StdProofs SkyModel SkyProofs SkyProofs8 StrModel StrSpec StrProofs StrProofs2.
From Coq Require Import ZifyBool ZifyNat.

Lemma box_id_in st part c : box_in st part -> c ∈ box_ids st part -> 0 <= c < grid_nb st.
Proof. intros Hb Hc. apply (cells_of_range st part); [done|]. apply box_ids_elem; [by apply box_in_len|done]. Qed.

(** ** SwitchOnIdsFrom *)
Lemma switchOn_ok st part v : dim_ok st -> box_in st part -> zlen v = grid_nb st ->
  exists v', SwitchOnIdsFrom st part v = Ok v' /\ zlen v' = zlen v /\ (forall c, cells_of st part c -> v' @ c = Some true) /\ (forall c, ~ cells_of st part c -> v' @ c = v @ c).
Proof.
  intros Hd Hb Hv. unfold SwitchOnIdsFrom. pose proof (box_in_len _ _ Hb) as Hl. rewrite Hl, Z.eqb_refl. cbn [negb ifthrow]. rewrite nbStruct_ok by (try (by apply dim_ok_ne); by eapply box_in_nonneg). cbn [bind]. rewrite Hv, Z.eqb_refl. cbn [negb ifthrow].
  rewrite getDims_ok by (by eapply box_in_le). cbn [bind]. rewrite forBox_ids by done. apply wp_ok.
  apply (wp_foldM _ (fun pre v' => zlen v' = grid_nb st /\ (forall c, c ∈ pre -> v' @ c = Some true) /\ (forall c, c ∉ pre -> v' @ c = v @ c))).
  - split; [done|]. split; [|done]. intros c Hc. by apply elem_of_nil in Hc.
  - intros pre x post s He (Hs & H1 & H2). pose proof (box_id_in st part x Hb ltac:(rewrite He; set_solver)) as Hx. rewrite wr_ok by lia. cbn [wp]. split; [by rewrite zlen_zset|]. split.
    + intros c Hc. rewrite zlook_zset by lia. destruct (c =? x) eqn:E; [done|]. apply elem_of_app in Hc as [Hc|Hc]; [by apply H1|]. apply elem_of_list_singleton in Hc. lia.
    + intros c Hc. rewrite zlook_zset by lia. rewrite elem_of_app, elem_of_list_singleton in Hc. destruct (c =? x) eqn:E; [destruct Hc; right; lia|]. apply H2. tauto.
  - intros s (Hs & H1 & H2). split; [done|]. split; intros c Hc; [apply H1|apply H2]; rewrite box_ids_elem by done; done.
Qed.
Lemma switchOn_throw st part v : Forall (Z.le 0) st -> dim_ok st -> zlen st <> zlen part \/ zlen v <> grid_nb st \/ Exists (fun r => snd r < fst r) part -> SwitchOnIdsFrom st part v = Throw.
Proof.
  intros Hs Hd H. unfold SwitchOnIdsFrom. destruct (zlen st =? zlen part) eqn:E; [|done]. cbn [negb ifthrow]. rewrite nbStruct_ok by (try (by apply dim_ok_ne); done). cbn [bind]. destruct (zlen v =? grid_nb st) eqn:E2; [|done]. cbn [negb ifthrow].
  destruct H as [H|[H|H]]; [lia..|]. enough (GetDimensionsFromCompactFrmt part = Throw) as -> by done. unfold GetDimensionsFromCompactFrmt.
  assert (forall pre, foldM (fun ret '(a, b) => throw_if b <? a >>> Ok (ret ++ [b - a])) part pre = Throw) as Hx; [|apply Hx]. clear -H. induction H as [[a b] part Hr|[a b] part Hr IH]; intros pre; cbn [foldM].
  - simpl in Hr. replace (b <? a) with true by lia. done.
  - destruct (b <? a); [done|]. cbn [ifthrow bind]. apply IH.
Qed.

(** ** ExtractFieldOfBoolFrom *)
Lemma zlen_resize {A} m (x : A) l : 0 <= m -> zlen (resize (Z.to_nat m) x l) = m.
Proof. intros H. unfold zlen. rewrite resize_length. lia. Qed.
Lemma lookups {A} (f : list A) ids : (forall c, c ∈ ids -> 0 <= c < zlen f) -> exists r, Forall2 (fun c x => f @ c = Some x) ids r.
Proof.
  induction ids as [|c ids IH]; intros H; [exists []; constructor|]. destruct IH as [r Hr]; [intros; apply H; by right|]. destruct (zlook_lt f c) as [x Hx]; [apply H; left|]. exists (x :: r). by constructor.
Qed.
Lemma wr_next {A} (k o : list A) x : zlen k < zlen o -> wr (k ++ drop (length k) o) (zlen k) x = Ok ((k ++ [x]) ++ drop (length (k ++ [x])) o).
Proof.
  intros H. unfold zlen in H. rewrite wr_ok.
  - f_equal. unfold zset, zlen. rewrite Nat2Z.id. rewrite insert_app_r_alt by lia. rewrite Nat.sub_diag. destruct (drop (length k) o) as [|y t] eqn:E.
    + apply (f_equal length) in E. rewrite drop_length in E. simpl in E. lia.
    + rewrite <- app_assoc. cbn. do 2 f_equal. rewrite app_length. simpl. replace (length k + 1)%nat with (length k + 1)%nat by lia. rewrite <- drop_drop, E. done.
  - rewrite zlen_app. unfold zlen. rewrite drop_length. lia.
Qed.
Lemma extractBool_ok st f part out : dim_ok st -> box_in st part -> zlen f = grid_nb st ->
  exists r, ExtractFieldOfBoolFrom st f part out = Ok r /\ Forall2 (fun c x => f @ c = Some x) (box_ids st part) r.
Proof.
  intros Hd Hb Hf. destruct (lookups f (box_ids st part)) as [r Hr]. { intros c Hc. rewrite Hf. by apply (box_id_in st part). }
  exists r. split; [|done]. unfold ExtractFieldOfBoolFrom. pose proof (box_in_len _ _ Hb) as Hl. rewrite Hl, Z.eqb_refl. cbn [negb ifthrow]. rewrite nbStruct_ok by (try (by apply dim_ok_ne); by eapply box_in_nonneg). cbn [bind]. rewrite Hf, Z.eqb_refl. cbn [negb ifthrow].
  rewrite getDims_ok by (by eapply box_in_le). cbn [bind]. rewrite nbStruct_ok; [|by eapply box_dims_nonneg, box_in_le|]. 2:{ intros E. apply dim_ok_ne in Hd. apply Hd. unfold box_dims in E. apply fmap_nil_inv in E. subst part. destruct st; [done|]. rewrite zlen_cons, zlen_nil in Hl. pose proof (zlen_nonneg st). lia. }
  cbn [bind]. rewrite <- (box_ids_len st) by (try done; by eapply box_in_le). rewrite forBox_ids by done. set (ids := box_ids st part) in *.
  set (o := resize (Z.to_nat (zlen ids)) false out). assert (zlen o = zlen ids) as Ho by (apply zlen_resize; apply zlen_nonneg).
  assert (zlen r = zlen ids) as Hlr by (apply Forall2_length in Hr; unfold zlen; lia).
  set (stt := fun k : list bool => (k ++ drop (length k) o, zlen k)). replace (o, 0) with (stt []) by (unfold stt; rewrite drop_0; done).
  rewrite (foldM_blocks _ (fun c x => f @ c = Some x) stt ids r); unfold stt; [|done|].
  - cbn [bind]. f_equal. rewrite drop_ge; [by rewrite app_nil_r|]. unfold zlen in *. lia.
  - intros pre c x post He Hx. rewrite (rd_ok _ _ _ Hx). cbn [bind]. rewrite wr_next.
    + cbn [bind]. rewrite zlen_app. done.
    + rewrite Ho, <- Hlr, He, zlen_app, zlen_cons. pose proof (zlen_nonneg post). lia.
Qed.

(** ** ExtractFieldOfDoubleFrom *)
Lemma extractDouble_ok {A} st (f : da A) part : dim_ok st -> box_in st part -> da_alloc f = true -> da_wf f -> da_nt f = grid_nb st ->
  exists r, ExtractFieldOfDoubleFrom st (Some f) part = Ok (DA true (da_nc f) r) /\ zlen r = zlen (box_ids st part) * da_nc f /\
    forall i c j, box_ids st part @ i = Some c -> ij (DA true (da_nc f) r) i j = ij f c j.
Proof.
  intros Hd Hb Ha Hwf Hf. destruct (da_wf_len f Hwf) as (Hlen & Hnt & Hnc). set (nc := da_nc f) in *. set (ids := box_ids st part).
  set (g := fun c => sub (da_vals f) (c * nc) ((c + 1) * nc)).
  assert (forall c, c ∈ ids -> 0 <= c < da_nt f) as Hr by (intros c Hc; rewrite Hf; by apply (box_id_in st part)).
  assert (forall c, c ∈ ids -> zlen (g c) = nc) as Hg. { intros c Hc. specialize (Hr c Hc). unfold g. rewrite zlen_sub by nia. lia. }
  exists (concat (g <$> ids)). split; [|split; [by apply zlen_concat_c|]].
  - unfold ExtractFieldOfDoubleFrom, checkAllocated. rewrite Ha. cbn [negb ifthrow]. pose proof (box_in_len _ _ Hb) as Hl. rewrite Hl, Z.eqb_refl. cbn [negb ifthrow]. rewrite nbStruct_ok by (try (by apply dim_ok_ne); by eapply box_in_nonneg). cbn [bind]. rewrite Hf, Z.eqb_refl. cbn [negb ifthrow].
    rewrite getDims_ok by (by eapply box_in_le). cbn [bind]. rewrite nbStruct_ok; [|by eapply box_dims_nonneg, box_in_le|]. 2:{ intros E. apply dim_ok_ne in Hd. apply Hd. unfold box_dims in E. apply fmap_nil_inv in E. subst part. destruct st; [done|]. rewrite zlen_cons, zlen_nil in Hl. pose proof (zlen_nonneg st). lia. }
    cbn [bind]. rewrite <- (box_ids_len st) by (try done; by eapply box_in_le). fold ids nc. unfold alloc. pose proof (zlen_nonneg ids). replace ((zlen ids <? 0) || (nc <? 0)) with false by lia. cbn [ubif bind]. rewrite forBox_ids by done. fold ids.
    set (stt := fun k : list Z => ((Some <$> concat (g <$> k)) ++ malloc A (nc * (zlen ids - zlen k)), nc * zlen k)). replace (malloc A (nc * zlen ids), 0) with (stt []) by (unfold stt; rewrite zlen_nil, Z.sub_0_r, Z.mul_0_r; done).
    rewrite (foldM_blocks _ eq stt ids ids); unfold stt.
    + cbn [bind]. rewrite Z.sub_diag, Z.mul_0_r, malloc_0, app_nil_r, initialised_ok. done.
    + clear. induction ids; constructor; done.
    + intros pre c b post He <-. assert (c ∈ ids) as Hc by (rewrite He; set_solver). pose proof (Hr c Hc) as Hc'. assert (zlen ids = zlen pre + 1 + zlen post) as Hli by (rewrite He, zlen_app, zlen_cons; lia). pose proof (zlen_nonneg post).
      rewrite copyc_fill; try nia.
      * cbn [bind]. rewrite (fmap_app g), concat_app. cbn [concat fmap list_fmap]. rewrite app_nil_r. fold (g c). rewrite zlen_app. change (zlen [c]) with 1. do 4 f_equal; [f_equal; ring|ring].
      * rewrite (zlen_concat_c g pre nc); [ring|]. intros x Hx. apply Hg. rewrite He. set_solver.
  - intros i c j Hi. unfold ij. cbn [da_nc da_vals]. fold nc. pose proof (zlook_Some_lt _ _ _ Hi). pose proof (Hr c ltac:(eapply zlook_elem; done)).
    replace (0 <=? i) with true by lia. replace (0 <=? c) with true by lia. destruct (true && (0 <=? j) && (j <? nc)) eqn:Ej; [|done]. rewrite (zlook_concat g ids nc i c j) by (try done; lia). unfold g. rewrite zlook_sub by nia. f_equal.
Qed.
