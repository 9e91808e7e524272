From Verif Require Import Base DataArray ArrLib FillLib RenumProofs IndexSpec IndexProofs IndexProofs2 IndexProofs4 IndexProofs5 LayoutProofs2 SearchSpec StdProofs SkyModel SkyProofs SkyProofs8 StrModel StrSpec StrProofs StrProofs2 StrProofs3.
From Coq Require Import ZifyBool ZifyNat.

(** ** MultiplyPartOf *)
Lemma mul_range {A} (mul : A -> A) lo hi pt (T : Prop) : 0 <= lo -> lo <= hi -> hi <= zlen pt ->
  wp (forZ lo hi (fun x pt => let* v := rd pt x in wr pt x (mul v)) pt) (fun pt' => zlen pt' = zlen pt /\ forall x, pt' @ x = if (lo <=? x) && (x <? hi) then mul <$> pt @ x else pt @ x) T.
Proof.
  intros H0 H1 H2. apply (wp_forZ (fun i pt' => zlen pt' = zlen pt /\ forall x, pt' @ x = if (lo <=? x) && (x <? i) then mul <$> pt @ x else pt @ x)).
  - done.
  - split; [done|]. intros x. replace ((lo <=? x) && (x <? lo)) with false by lia. done.
  - intros i s Hi (Hl & Hs). destruct (zlook_lt pt i) as [v Hv]; [lia|]. assert (s @ i = Some v) as Hsv. { rewrite Hs. replace ((lo <=? i) && (i <? i)) with false by lia. done. }
    rewrite (rd_ok _ _ _ Hsv). cbn [bind]. rewrite wr_ok by lia. cbn [wp]. split; [by rewrite zlen_zset|]. intros x. rewrite zlook_zset by lia. destruct (x =? i) eqn:E.
    + assert (x = i) as -> by lia. replace ((lo <=? i) && (i <? i + 1)) with true by lia. rewrite Hv. done.
    + rewrite Hs. replace ((lo <=? x) && (x <? i + 1)) with ((lo <=? x) && (x <? i)) by lia. done.
  - done.
Qed.
Lemma multiply_ok {A} (mul : A -> A) st (d : da A) part : dim_ok st -> box_in st part -> da_alloc d = true -> da_wf d -> da_nt d = grid_nb st ->
  exists r, MultiplyPartOf mul st part (Some d) = Ok (DA true (da_nc d) r) /\ zlen r = zlen (da_vals d) /\
    (forall c j, cells_of st part c -> ij (DA true (da_nc d) r) c j = mul <$> ij d c j) /\
    (forall c j, ~ cells_of st part c -> ij (DA true (da_nc d) r) c j = ij d c j).
Proof.
  intros Hd Hb Ha Hwf Hf. destruct (da_wf_len d Hwf) as (Hlen & Hnt & Hnc). set (nc := da_nc d) in *. set (ids := box_ids st part).
  assert (forall c, c ∈ ids -> 0 <= c < da_nt d) as Hr by (intros c Hc; rewrite Hf; by apply (box_id_in st part)). pose proof (box_in_len _ _ Hb) as Hl.
  assert (NoDup ids) as Hnd.
  { pose proof (box_ids_inc _ _ Hb) as Hi. fold ids in Hi. apply NoDup_alt. intros i j x Hx Hy. destruct (decide (i = j)); [done|]. exfalso. rewrite <- zlook_nat in Hx, Hy. destruct (Z.lt_ge_cases (Z.of_nat i) (Z.of_nat j)).
    - pose proof (Hi (Z.of_nat i) (Z.of_nat j) x x ltac:(lia) Hx Hy). lia.
    - pose proof (Hi (Z.of_nat j) (Z.of_nat i) x x ltac:(lia) Hy Hx). lia. }
  set (I := fun (pre : list Z) (pt : list A) => zlen pt = zlen (da_vals d) /\ forall c j, 0 <= c -> 0 <= j < nc -> pt @ (c * nc + j) = if bool_decide (c ∈ pre) then mul <$> da_vals d @ (c * nc + j) else da_vals d @ (c * nc + j)).
  assert (wp (foldM (fun pt offset => forZ (nc * offset) (nc * (offset + 1)) (fun x pt => let* v := rd pt x in wr pt x (mul v)) pt) ids (da_vals d)) (I ids) False) as Hw.
  { apply (wp_foldM _ I).
    - split; [done|]. intros c j _ _. rewrite bool_decide_eq_false_2 by (apply not_elem_of_nil). done.
    - intros pre x post s He (Hs & Hv). pose proof (Hr x ltac:(rewrite He; set_solver)) as Hx. eapply wp_mono; [apply mul_range; rewrite ?Hs; nia| |done]. intros pt' (Hp1 & Hp2). split; [congruence|]. intros c j Hc Hj. rewrite Hp2, Hv by done.
      destruct (decide (c = x)) as [->|Hne].
      + replace (_ && _) with true by nia. rewrite (bool_decide_eq_false_2 (x ∈ pre)), (bool_decide_eq_true_2 (x ∈ pre ++ [x])); [done|set_solver|]. rewrite He in Hnd. apply NoDup_app in Hnd as (_ & Hnd & _). intros Hxp. apply (Hnd x Hxp). left.
      + replace ((nc * x <=? c * nc + j) && (c * nc + j <? nc * (x + 1))) with false. 2:{ symmetry. apply andb_false_iff. assert (c < x \/ x < c) as [Hlt|Hlt] by lia; [left; nia|right; nia]. }
        rewrite (bool_decide_ext (c ∈ pre ++ [x]) (c ∈ pre)); [done|]. rewrite elem_of_app, elem_of_list_singleton. tauto.
    - done. }
  apply wp_ok in Hw as (r & Hr1 & Hr2 & Hr3). exists r. split; [|split; [done|]].
  - unfold MultiplyPartOf, checkAllocated. rewrite Ha. cbn [negb ifthrow]. rewrite Hl, Z.eqb_refl. cbn [negb ifthrow]. rewrite checkedDims_ok by done. cbn [bind]. rewrite nbStruct_ok by (try (by apply dim_ok_ne); by eapply box_in_nonneg). cbn [bind]. rewrite Hf, Z.eqb_refl. cbn [negb ifthrow].
    rewrite forBox_ids by done. fold ids nc. rewrite Hr1. done.
  - split; intros c j Hc; rewrite <- (box_ids_elem st part c Hl) in Hc; fold ids in Hc; unfold ij; cbn [da_nc da_vals]; fold nc.
    + pose proof (Hr c Hc). replace (0 <=? c) with true by lia. destruct (true && (0 <=? j) && (j <? nc)) eqn:E; [|done]. rewrite Hr3 by lia. rewrite bool_decide_eq_true_2 by done. done.
    + destruct ((0 <=? c) && (0 <=? j) && (j <? nc)) eqn:E; [|done]. rewrite Hr3 by lia. rewrite bool_decide_eq_false_2 by done. done.
Qed.
Lemma multiply_throw {A} (mul : A -> A) st (d : da A) part : dim_ok st -> Forall (Z.le 0) st -> da_alloc d = false \/ da_nt d <> grid_nb st \/ zlen st <> zlen part \/ ~ box_in st part -> MultiplyPartOf mul st part (Some d) = Throw.
Proof.
  intros Hd Hp H. unfold MultiplyPartOf, checkAllocated. destruct (da_alloc d); [|done]. cbn [negb ifthrow]. destruct (zlen st =? zlen part) eqn:E; [|done]. cbn [negb ifthrow].
  assert (box_in st part \/ ~ box_in st part) as [Hb|Hb].
  { assert (zlen st = zlen part) as Hl by lia. clear -Hl. revert part Hl. induction st as [|n st IH]; intros part Hl; destruct part as [|[a b] part]; unfold zlen in Hl; simpl in Hl; try lia; [left; constructor|].
    destruct (IH part ltac:(unfold zlen; lia)) as [Hx|Hx]; [|right; intros Hy; inversion Hy; done]. destruct (decide (0 <= a /\ a <= b /\ b <= n)) as [Hr|Hr]; [left; constructor; done|]. right. intros Hy. inversion Hy; done. }
  - rewrite checkedDims_ok by done. cbn [bind]. rewrite nbStruct_ok by (try (by apply dim_ok_ne); done). cbn [bind]. destruct (da_nt d =? grid_nb st) eqn:E2; [|done]. destruct H as [H|[H|[H|H]]]; try done; lia.
  - rewrite checkedDims_throw by (try done; lia). done.
Qed.

(** ** Order of the ids of a box *)
Lemma grid_id_mono st p q : Forall (Z.lt 0) st -> Forall2 Z.le p q -> grid_id st p <= grid_id st q.
Proof.
  intros Hs. revert p q. induction Hs as [|n st Hn _ IH]; intros p q H; [simpl; lia|]. destruct H as [|x y p q Hx H]; [simpl; lia|]. cbn [grid_id]. specialize (IH p q H). nia.
Qed.
Lemma box_lo_in part : nonempty_box part -> in_box part (fst <$> part).
Proof. induction 1 as [|r part Hr _ IH]; [constructor|]. rewrite fmap_cons. constructor; [lia|done]. Qed.
Lemma box_hi_in part : nonempty_box part -> in_box part ((fun r => snd r - 1) <$> part).
Proof. induction 1 as [|r part Hr _ IH]; [constructor|]. rewrite fmap_cons. constructor; [lia|done]. Qed.
Lemma in_box_lo part pos : in_box part pos -> Forall2 Z.le (fst <$> part) pos.
Proof. induction 1 as [|r p part pos Hr _ IH]; [constructor|]. rewrite fmap_cons. constructor; [lia|done]. Qed.
Lemma in_box_hi part pos : in_box part pos -> Forall2 Z.le pos ((fun r => snd r - 1) <$> part).
Proof. induction 1 as [|r p part pos Hr _ IH]; [constructor|]. rewrite fmap_cons. constructor; [lia|done]. Qed.
Lemma in_box_grid st part pos : box_in st part -> in_box part pos -> in_grid st pos.
Proof. intros Hb. revert pos. induction Hb as [|n r st part Hr Hb IH]; intros pos Hp; inversion Hp; subst; constructor; [lia|]. by apply IH. Qed.
Lemma box_ids_first st part x : Forall (Z.lt 0) st -> box_in st part -> nonempty_box part -> box_ids st part @ 0 = Some x -> x = grid_id st (fst <$> part).
Proof.
  intros Hs Hb Hn Hx. pose proof (box_in_len _ _ Hb) as Hl. assert (x ∈ box_ids st part) as Hin by (eapply zlook_elem; done). apply box_ids_elem in Hin as (pos & Hp & ->); [|done].
  pose proof (grid_id_mono st _ _ Hs (in_box_lo _ _ Hp)). assert (grid_id st (fst <$> part) ∈ box_ids st part) as Hin. { apply box_ids_elem; [done|]. exists (fst <$> part). split; [by apply box_lo_in|done]. }
  apply elem_of_zlook in Hin as [i Hi]. pose proof (zlook_Some_lt _ _ _ Hi). destruct (decide (i = 0)) as [->|]; [rewrite Hx in Hi; injection Hi as <-; done|]. pose proof (box_ids_inc _ _ Hb 0 i _ _ ltac:(lia) Hx Hi). lia.
Qed.
Lemma box_ids_last st part x : Forall (Z.lt 0) st -> box_in st part -> nonempty_box part -> box_ids st part @ (zlen (box_ids st part) - 1) = Some x -> x = grid_id st ((fun r => snd r - 1) <$> part).
Proof.
  intros Hs Hb Hn Hx. pose proof (box_in_len _ _ Hb) as Hl. assert (x ∈ box_ids st part) as Hin by (eapply zlook_elem; done). apply box_ids_elem in Hin as (pos & Hp & ->); [|done].
  pose proof (grid_id_mono st _ _ Hs (in_box_hi _ _ Hp)). assert (grid_id st ((fun r => snd r - 1) <$> part) ∈ box_ids st part) as Hin. { apply box_ids_elem; [done|]. exists ((fun r => snd r - 1) <$> part). split; [by apply box_hi_in|done]. }
  apply elem_of_zlook in Hin as [i Hi]. pose proof (zlook_Some_lt _ _ _ Hi). set (L := zlen (box_ids st part)) in *. destruct (decide (i = L - 1)) as [->|]; [rewrite Hx in Hi; injection Hi as <-; done|]. pose proof (box_ids_inc _ _ Hb i (L - 1) _ _ ltac:(lia) Hi Hx). lia.
Qed.

(** ** Splitting an id that may be too large *)
Lemma grid_id_last init n n' pos : length pos = S (length init) -> grid_id (init ++ [n]) pos = grid_id (init ++ [n']) pos.
Proof. revert pos. induction init as [|m init IH]; intros pos H; destruct pos as [|p pos]; try done. - destruct pos; [|done]. cbn. lia. - cbn [app grid_id]. rewrite (IH pos) by (simpl in H; lia). done. Qed.
Lemma split_last init n n' spt : is_split (init ++ [n]) spt -> is_split (init ++ [n']) spt.
Proof.
  intros [H1 H2]. rewrite zlen_app in H1. split; [rewrite zlen_app; done|]. intros i Hi. rewrite zlen_app in Hi. change (zlen [n']) with 1 in Hi. rewrite (H2 i) by (rewrite zlen_app; done). f_equal. rewrite !take_app_le by (unfold zlen in Hi; lia). done.
Qed.
Lemma getpos_any init n spt id r : is_split (init ++ [n]) spt -> Forall (Z.lt 0) init -> 0 <= id -> zlen r = zlen (init ++ [n]) ->
  exists pos m, GetPosFromId id (zlen (init ++ [n])) spt r = Ok pos /\ in_grid (init ++ [m]) pos /\ grid_id (init ++ [n]) pos = id.
Proof.
  intros Hs Hp Hid Hr. pose proof (grid_nb_pos init Hp) as HG. set (m := id / grid_nb init + 1). assert (0 <= id / grid_nb init) by (apply Z.div_pos; lia).
  pose proof (Z.div_mod id (grid_nb init) ltac:(lia)) as Hdm. pose proof (Z.mod_pos_bound id (grid_nb init) HG).
  destruct (getpos_ok (init ++ [m]) spt id r) as (pos & H1 & H2 & H3).
  - by apply (split_last init n m).
  - apply Forall_app. split; [done|]. constructor; [lia|constructor].
  - rewrite grid_nb_app. cbn [grid_nb]. unfold m. split; [done|]. rewrite Z.mul_1_r, Z.mul_add_distr_l. lia.
  - rewrite Hr, !zlen_app. done.
  - exists pos, m. replace (zlen (init ++ [n])) with (zlen (init ++ [m])) by (rewrite !zlen_app; done). split; [done|]. split; [done|]. rewrite <- H3. apply grid_id_last. apply Forall2_length in H2. rewrite app_length in H2. simpl in H2. lia.
Qed.
