From Verif Require Import Base DataArray ArrLib SlicesSpec SlicesModel SlicesProofs RenumSpec RenumModel RenumProofs SearchSpec StdModel StdProofs SearchProofs IndexSpec IndexModel FillLib IndexProofs IndexProofs2 IndexProofs3 IndexProofs4 IndexProofs5 LayoutModel SkyModel SkySpec SkyProofs SkyProofs2 SkyProofs3.
From Coq Require Import ZifyBool ZifyNat.

Lemma offs_snoc o l x : offs o (l ++ [x]) = offs o l ++ [o + zsum l + x].
Proof. revert o. induction l as [|n l IH]; intros o; [cbn; do 2 f_equal; lia|]. cbn [app offs]. rewrite IH, zsum_cons. do 3 f_equal. lia. Qed.
Lemma psums_offs l : psums l = offs 0 l.
Proof. induction l as [|x l IH] using rev_ind; [done|]. by rewrite psums_snoc_eq, offs_snoc, IH. Qed.
Lemma sky2_psums ps u : sky2 ps (Sky u (psums (zlen <$> ps)) (concat ps)).
Proof. exists [], []. simpl. rewrite app_nil_r, psums_offs. done. Qed.

(** * replaceSimplePacks. *)
Lemma zset_mid {A} (k y : list A) c x : zset (k ++ c :: y) (zlen k) x = k ++ x :: y.
Proof. unfold zset, zlen. rewrite Nat2Z.id. rewrite <- (Nat.add_0_r (length k)), insert_app_r. done. Qed.
Lemma drop_cons_z {A} (l : list A) n : 0 <= n < zlen l -> exists c, drop (Z.to_nat n) l = c :: drop (Z.to_nat (n + 1)) l.
Proof.
  intros H. destruct (zlook_lt l n H) as [c Hc]. exists c. unfold zlook in Hc. replace (n <? 0) with false in Hc by lia.
  rewrite (drop_S _ c) by done. do 2 f_equal. lia.
Qed.
Lemma replaces_ok ps s ids packs : sky2 ps s -> ids <> [] -> (forall i, i ∈ ids -> 0 <= i < zlen ps) -> zlen ids = zlen packs ->
  exists s', replaceSimplePacks s ids packs = Ok s' /\ sky2 (upd (set_of <$> ps) (zip ids (set_of <$> packs))) s' /\ s_super s' = s_super s.
Proof.
  intros Hs Hne Hids Hlen. pose proof (len2 _ _ Hs) as Hl. pose proof (zlen_nonneg ps). unfold replaceSimplePacks.
  replace (zlen ids =? 0) with false by (destruct ids; [done|]; rewrite zlen_cons; pose proof (zlen_nonneg ids); lia).
  rewrite existsb_ids_false by (intros i Hin; specialize (Hids i Hin); lia). rewrite Hlen, Z.eqb_refl. cbn [ifthrow negb].
  replace (zlen (s_index s) - 1) with (zlen ps) by lia.
  change (@nil (list Z)) with (set_of <$> @nil (list Z)). rewrite (forZ_blocks _ (fun pre => set_of <$> pre) (zlen ps) ps eq_refl).
  2: { intros pre b post ->. destruct (sky2_at _ _ _ _ Hs) as (x & y & H' & Hv & _ & Hi & H0 & H1 & _). rewrite (rd_ok _ _ _ H0), (rd_ok _ _ _ H1). cbn [bind].
    rewrite Hv, save_mid by done. cbn [bind]. by rewrite fmap_snoc. }
  cbn [bind]. set (old := set_of <$> ps). set (news := set_of <$> packs).
  pose (st := fun pre : list (Z * list Z) => (upd old pre, zlen pre)). change (old, 0) with (st []).
  rewrite (foldM_blocks _ (fun i (ip : Z * list Z) => i = ip.1 /\ 0 <= i < zlen ps) st ids (zip ids news)).
  3: { intros pre i [j q] post E [-> Hj]. simpl in *. unfold st.
    assert (zip ids news @ zlen pre = Some (j, q)) as Hz by (rewrite E, zlook_app_r by lia; by rewrite Z.sub_diag).
    assert (packs @ zlen pre = Some (default [] (packs @ zlen pre)) /\ q = set_of (default [] (packs @ zlen pre))) as [Hp ->].
    { unfold zlook in *. pose proof (zlen_nonneg pre). replace (zlen pre <? 0) with false in * by lia. apply lookup_zip_with_Some in Hz as (a & b & Hab & _ & Hb).
      injection Hab as -> ->. unfold news in Hb. rewrite list_lookup_fmap in Hb. destruct (packs !! _); [|done]. simpl in *. injection Hb as ->. done. }
    rewrite (rd_ok _ _ _ Hp). cbn [bind]. rewrite wr_ok by (rewrite upd_len; unfold old; rewrite zlen_fmap; lia). cbn [bind]. rewrite upd_snoc, zlen_app. done. }
  2: { clear -Hids Hlen. assert (zlen ids = zlen news) as Hl by (unfold news; by rewrite zlen_fmap). clearbody news. clear Hlen. revert news Hl. induction ids as [|i ids IH]; intros [|n news] Hl; [constructor|rewrite zlen_nil, zlen_cons in Hl; pose proof (zlen_nonneg news); lia|rewrite zlen_nil, zlen_cons in Hl; pose proof (zlen_nonneg ids); lia|].
    constructor; [split; [done|apply Hids; set_solver]|]. apply IH; [intros; apply Hids; set_solver|rewrite !zlen_cons in Hl; lia]. }
  unfold st. cbn [bind]. set (sets := upd old (zip ids news)). assert (zlen sets = zlen ps) as Hsl by (unfold sets; rewrite upd_len; apply zlen_fmap). clearbody sets. clear st.
  rewrite wr_ok by lia. cbn [bind].
  pose (st := fun pre : list (list Z) => (psums (zlen <$> pre) ++ drop (Z.to_nat (zlen pre + 1)) (s_index s), zlen pre, zsum (zlen <$> pre))).
  replace (zset (s_index s) 0 0, 0, 0) with (st []).
  2: { unfold st. do 2 f_equal. simpl. destruct (s_index s) as [|c l]; [rewrite zlen_nil in Hl; lia|]. done. }
  rewrite (foldM_blocks _ eq st sets sets (Forall2_eq_refl sets)).
  2: { intros pre x b post E ->. unfold st. assert (zlen pre < zlen sets) by (rewrite E, zlen_app, zlen_cons; pose proof (zlen_nonneg post); lia). pose proof (zlen_nonneg pre).
    destruct (drop_cons_z (s_index s) (zlen pre + 1)) as [c ->]; [lia|]. assert (zlen (psums (zlen <$> pre)) = zlen pre + 1) as Hp by (by rewrite psums_len, zlen_fmap).
    rewrite wr_ok by (rewrite zlen_app, zlen_cons, Hp; pose proof (zlen_nonneg (drop (Z.to_nat (zlen pre + 1 + 1)) (s_index s))); lia). cbn [bind].
    rewrite <- Hp, zset_mid. rewrite fmap_snoc, psums_snoc_eq, zsum_snoc, zlen_app. change (zlen [b]) with 1. rewrite Hp. rewrite <- app_assoc. done. }
  unfold st. cbn [bind]. rewrite drop_all_z by lia. rewrite app_nil_r. rewrite <- zlen_concat.
  unfold reAllocC. pose proof (zlen_nonneg (concat sets)). replace (_ <? 0) with false by lia. cbn [ubif bind].
  set (c := take _ _ ++ malloc Z _).
  assert (zlen c = zlen (concat sets)) as Hc.
  { unfold c. rewrite zlen_app, zlen_take, zlen_fmap. destruct (decide (zlen (concat sets) - zlen (s_values s) <= 0)) as [Hle|Hlt].
    - rewrite malloc_neg by done. rewrite zlen_nil. lia.
    - rewrite zlen_malloc' by lia. pose proof (zlen_nonneg (s_values s)). lia. }
  clearbody c. pose (st2 := fun pre : list (list Z) => ((Some <$> concat pre) ++ drop (Z.to_nat (zlen (concat pre))) c, zlen pre)). change (c, 0) with (st2 []).
  rewrite (foldM_blocks _ eq st2 sets sets (Forall2_eq_refl sets)).
  2: { intros pre x b post E ->. unfold st2.
    assert (psums (zlen <$> sets) @ zlen pre = Some (zlen (concat pre))) as Hi.
    { rewrite psums_offs, E, (fmap_app zlen pre), offs_app, zlook_app_r by (rewrite heads_len, zlen_fmap; lia). rewrite heads_len, zlen_fmap, Z.sub_diag, offs_hd. by rewrite zlen_concat. }
    rewrite (rd_ok _ _ _ Hi). cbn [bind].
    assert (zlen c = zlen (concat pre) + zlen b + zlen (concat post)) as Hcl by (rewrite Hc, E, concat_app; change (concat (b :: post)) with (b ++ concat post); rewrite !zlen_app; lia).
    pose proof (zlen_nonneg (concat pre)). pose proof (zlen_nonneg b). pose proof (zlen_nonneg (concat post)).
    replace (drop (Z.to_nat (zlen (concat pre))) c) with (take (Z.to_nat (zlen b)) (drop (Z.to_nat (zlen (concat pre))) c) ++ drop (Z.to_nat (zlen (concat (pre ++ [b])))) c).
    2: { rewrite concat_snoc, zlen_app, Z2Nat.inj_add by lia. rewrite <- drop_drop. apply take_drop. }
    rewrite restore_mid; [|by rewrite zlen_fmap|rewrite zlen_fmap, zlen_take, zlen_drop; lia]. cbn [bind]. rewrite concat_snoc, fmap_app, <- app_assoc, (zlen_app pre). done. }
  unfold st2. cbn [bind]. rewrite drop_all_z by lia. rewrite app_nil_r, initialised_ok. cbn [bind]. eexists. split; [done|]. split; [|done]. apply sky2_psums.
Qed.
Lemma as_set_of p : as_set p (set_of p).
Proof. split; [|intros; apply elem_of_set_of]. apply increasing_SS, SS_set_of. Qed.
Lemma replaces_full ps s ids packs : sky2 ps s -> ids <> [] -> (forall i, i ∈ ids -> 0 <= i < zlen ps) -> zlen ids = zlen packs ->
  exists s' old' new' ps', replaceSimplePacks s ids packs = Ok s' /\ sky2 ps' s' /\ s_super s' = s_super s /\
    Forall2 as_set ps old' /\ Forall2 as_set packs new' /\ packs_replaced old' ids new' ps'.
Proof.
  intros Hs Hne Hids Hlen. destruct (replaces_ok ps s ids packs Hs Hne Hids Hlen) as (s' & H1 & H2 & H3).
  exists s', (set_of <$> ps), (set_of <$> packs), (upd (set_of <$> ps) (zip ids (set_of <$> packs))). split; [done|]. split; [done|]. split; [done|].
  split; [|split].
  - clear. induction ps; constructor; [apply as_set_of|done].
  - clear. induction packs; constructor; [apply as_set_of|done].
  - apply upd_replaced; [by rewrite zlen_fmap|]. by rewrite zlen_fmap.
Qed.
Lemma replaces_throw ps s ids packs : sky2 ps s -> ids <> [] -> ((exists i, i ∈ ids /\ (i < 0 \/ zlen ps < i)) \/ zlen ids <> zlen packs) -> replaceSimplePacks s ids packs = Throw.
Proof.
  intros Hs Hne H. pose proof (len2 _ _ Hs). unfold replaceSimplePacks.
  replace (zlen ids =? 0) with false by (destruct ids; [done|]; rewrite zlen_cons; pose proof (zlen_nonneg ids); lia).
  destruct (existsb _ ids) eqn:E; [done|]. cbn [ifthrow]. destruct H as [(i & Hi & Hb)|H].
  - rewrite (existsb_ids_true _ _ i) in E by (done || lia). done.
  - replace (zlen ids =? zlen packs) with false by lia. done.
Qed.
