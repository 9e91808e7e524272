From Coq Require Import QArith Qabs Lqa ZifyBool ZifyNat.
From Verif Require Import Base DataArray ArrLib SlicesSpec RenumSpec RenumModel RenumProofs IndexSpec FillLib IndexModel IndexProofs2 IndexProofs4 IndexProofs6 PartSpec PartModel PartProofs4 SkyModel SkyProofs PartDefSpec PartDefProofs
  TreeModel TreeModel2 TreeSpec TreeProofs TreeProofs2 TreeProofs3 TreeProofs4 TreeProofs5 TreeProofs6.
Local Open Scope Z_scope.

(** * areIncludedInMe *)
Lemma sorted_prefix k : forall l a, 0 <= k -> StronglySorted Z.lt l -> (forall x, x ∈ l -> a <= x) -> (forall j, a <= j < a + k -> j ∈ l) -> exists suf, l = seqZ a k ++ suf /\ forall x, x ∈ suf -> a + k <= x.
Proof.
  intros l a Hk. revert l a. pattern k. apply natlike_ind; [| |done]; clear k Hk.
  - intros l a HS Hl Hj. exists l. split; [done|]. intros x Hx. apply Hl in Hx. lia.
  - intros k Hk IH l a HS Hl Hj. destruct l as [|x l]; [exfalso; specialize (Hj a ltac:(lia)); set_solver|]. apply StronglySorted_inv in HS as [S1 S2]. rewrite Forall_forall in S2.
    assert (x = a) as ->. { specialize (Hl x ltac:(set_solver)). specialize (Hj a ltac:(lia)). apply elem_of_cons in Hj as [?|Hj]; [done|]. specialize (S2 a Hj). lia. }
    destruct (IH l (a + 1)) as (suf & E & Hs); [done|intros y Hy; specialize (S2 y Hy); lia| |].
    + intros j Hj'. specialize (Hj j ltac:(lia)). apply elem_of_cons in Hj as [?|?]; [lia|done].
    + exists suf. rewrite seqZ_cons by lia. cbn. replace (Z.succ a) with (a + 1) by lia. replace (Z.pred (Z.succ k)) with k by lia. rewrite E. split; [done|]. intros y Hy. apply Hs in Hy. lia.
Qed.
Lemma at_app_l (v w : list Q) dim m x k : points v dim m -> 0 <= x < m -> 0 <= k < dim -> at_ (v ++ w) dim x k = at_ v dim x k.
Proof. intros (Hd & Hm & Hl) Hx Hk. unfold at_. rewrite zlook_app_l; [done|]. nia. Qed.
Lemma at_app_r (v w : list Q) dim m x k : points v dim m -> m <= x -> 0 <= k < dim -> at_ (v ++ w) dim x k = at_ w dim (x - m) k.
Proof. intros (Hd & Hm & Hl) Hx Hk. unfold at_. rewrite zlook_app_r by nia. do 2 f_equal. nia. Qed.
Lemma near_app v w dim m eps i j : points v dim m -> 0 <= i < m -> m <= j -> near (v ++ w) dim i eps (v ++ w) j <-> near v dim i eps w (j - m).
Proof. intros HP Hi Hj. unfold near. split; intros H k Hk; specialize (H k Hk); rewrite (at_app_l v w dim m), (at_app_r v w dim m) in * by done; done. Qed.
Lemma slice_vec (ids : list Z) m n : zlen ids = n -> 0 <= m <= n -> mySelectByTupleIdSafeSlice (vec ids) m n 1 = Ok (DA true 1 (Some <$> drop (Z.to_nat m) ids)).
Proof.
  intros Hl Hm. assert (Hr : is_range_list m n 1 (seqZ m (n - m))).
  { intros k v. split.
    - intros H. pose proof (zlook_Some_lt _ _ _ H) as Hk. unfold zlen in Hk. rewrite seqZ_length in Hk. rewrite zlook_seqZ in H by lia. injection H as <-. split; [lia|]. split; [lia|]. unfold before. cbn. lia.
    - intros (Hk & -> & Hb). unfold before in Hb. rewrite zlook_seqZ by lia. f_equal. lia. }
  assert (Hin : forall v, v ∈ seqZ m (n - m) -> 0 <= v < zlen ids). { intros v Hv%elem_of_seqZ. lia. }
  rewrite (selectSlice_ok (vec ids) m n 1 (seqZ m (n - m))); [|done|apply vec_wf|split; [lia|lia]|done|intros v Hv; rewrite da_nt_vec; auto].
  destruct (select_composed (seqZ m (n - m)) ids Hin) as (r & -> & Hc). do 3 f_equal. apply zlook_ext. intros k.
  unfold composed in Hc. pose proof (Forall2_length _ _ _ Hc) as Hlr. rewrite seqZ_length in Hlr.
  destruct (decide (0 <= k < n - m)).
  - rewrite zlook_drop by lia. destruct (zlook_lt r k) as [x Hx]; [unfold zlen; lia|]. rewrite Hx. rewrite zlook_to_nat in Hx by lia. pose proof (Forall2_lookup_r _ _ _ _ _ Hc Hx) as (y & Hy & Hyx).
    rewrite <- zlook_to_nat in Hy by lia. rewrite zlook_seqZ in Hy by lia. injection Hy as <-. rewrite <- Hyx. f_equal. lia.
  - destruct (decide (k < 0)); [rewrite !zlook_neg by lia; done|]. rewrite !zlook_ge; [done|unfold zlen; rewrite ?drop_length; unfold zlen in *; lia..].
Qed.
Lemma included_ok this other prec : da_alloc this = true -> da_alloc other = true -> da_wf this -> da_wf other -> da_nc this = da_nc other -> 1 <= da_nc this <= 4 ->
  exists b ids, areIncludedInMe this other prec = Ok (b, ids) /\ zlen ids = da_nt other /\
    (b = true <-> forall j, 0 <= j < da_nt other -> exists i, 0 <= i < da_nt this /\ near (da_vals this) (da_nc this) i prec (da_vals other) j) /\
    (b = true -> forall j, 0 <= j < da_nt other -> exists i, ids @ j = Some i /\ 0 <= i < da_nt this /\ near (da_vals this) (da_nc this) i prec (da_vals other) j /\
      forall i', 0 <= i' < da_nt this -> near (da_vals this) (da_nc this) i' prec (da_vals other) j -> i' <= i).
Proof.
  intros Ha Hb Wt Wo Hc H4. pose proof (wf_points this Wt ltac:(lia)) as HP. pose proof (wf_points other Wo ltac:(lia)) as HO. rewrite <- Hc in HO.
  unfold areIncludedInMe, checkAllocated. rewrite Ha, Hb. rewrite <- Hc, Z.eqb_refl. cbn [negb ifthrow].
  rewrite (aggregate_ok [Some this; Some other] (da_nc this)); [|done|].
  2: { intros d Hd. apply elem_of_cons in Hd as [Hd|Hd%elem_of_list_singleton]; injection Hd as ->; split; done. }
  cbn [bind da_vals da_nc]. rewrite initialised_ok. cbn [bind omap list_omap id fmap list_fmap concat app]. rewrite app_nil_r.
  set (v := da_vals this ++ da_vals other). set (dim := da_nc this) in *. set (m := da_nt this) in *. set (q := da_nt other) in *. set (a := DA true dim v).
  assert (Hv : zlen v = (m + q) * dim). { unfold v. rewrite zlen_app. destruct HP as (_ & _ & ->), HO as (_ & _ & ->). lia. }
  assert (Hm : 0 <= m) by apply HP. assert (Hq : 0 <= q) by apply HO.
  assert (Wa : da_wf a). { split; [cbn; lia|]. exists (m + q). split; [lia|done]. }
  assert (Hnt : da_nt a = m + q) by (apply da_nt_mul; [lia|lia|done]).
  destruct (common_data a prec m eq_refl Wa H4) as (ess & us & H1 & H2 & H3 & H5 & E). rewrite E. cbn [bind].
  assert (Hsym : forall i j, 0 <= i < da_nt a -> 0 <= j < da_nt a -> near (da_vals a) (da_nc a) i prec (da_vals a) j -> near (da_vals a) (da_nc a) j prec (da_vals a) i) by (intros; by apply near_sym).
  destruct (numbers_ok (da_nt a) m _ us ess ltac:(lia) H1 H2 H3 H5 Hsym _ _ (conj eq_refl (psums_ok _))) as (r & Er & Hl & Hu & Hcov).
  rewrite Er. cbn [bind]. rewrite initialised_ok. cbn [bind]. rewrite slice_vec by lia. cbn [bind da_vals]. rewrite initialised_ok. cbn [bind].
  destruct (sorted_prefix m us 0) as (suf & Eus & Hsuf); [done|done|intros x Hx; apply H3 in Hx; lia| |].
  { intros j Hj. apply H3. rewrite Hnt. split; [lia|]. intros (? & _). lia. }
  assert (Hzl : zlen us = m + zlen suf). { rewrite Eus, zlen_app. f_equal. unfold zlen. rewrite seqZ_length. lia. }
  assert (Hall : zlen suf = 0 <-> forall j, 0 <= j < q -> exists i, 0 <= i < m /\ near (da_vals this) dim i prec (da_vals other) j).
  { split.
    - intros Hz j Hj. assert (suf = []) as ->. { destruct suf; [done|]. rewrite zlen_cons in Hz. pose proof (zlen_nonneg suf). lia. } rewrite app_nil_r in Eus.
      destruct (H5 (m + j) ltac:(lia)) as [Hx|(_ & h & Hh & Hlt & HN)]; [rewrite Eus in Hx; apply elem_of_seqZ in Hx; lia|]. rewrite Eus in Hh. apply elem_of_seqZ in Hh. exists h. split; [lia|].
      apply (near_app (da_vals this) (da_vals other) dim m prec h (m + j) HP) in HN; [|lia|lia]. replace (m + j - m) with j in HN by lia. done.
    - intros H. destruct suf as [|s suf]; [done|]. exfalso. specialize (Hsuf s ltac:(set_solver)). assert (Hs : s ∈ us) by (rewrite Eus; apply elem_of_app; right; by left). apply H3 in Hs as [Hr Hcut]. apply Hcut.
      split; [lia|]. destruct (H (s - m) ltac:(lia)) as (i & Hi & HN). exists i. split; [rewrite Eus; apply elem_of_app; left; apply elem_of_seqZ; lia|]. split; [lia|].
      apply (near_app (da_vals this) (da_vals other) dim m prec i s HP); [lia|lia|done]. }
  exists (zlen us =? m), (drop (Z.to_nat m) r). split; [done|]. split; [unfold zlen in *; rewrite drop_length; lia|]. split.
  - rewrite <- Hall, Hzl. pose proof (zlen_nonneg suf). lia.
  - intros Hb' j Hj. assert (suf = []) as ->. { destruct suf; [done|]. rewrite zlen_cons in Hzl. pose proof (zlen_nonneg suf). lia. } rewrite app_nil_r in Eus.
    destruct (Hcov (m + j) ltac:(lia)) as (w & h & Hw & Hwh & (L1 & L2 & L3 & L4)); [rewrite Eus; intros Hx%elem_of_seqZ; lia|].
    assert (HX : forall x, x ∈ others m ess x -> True) by done. clear HX.
    assert (w = h) as ->. { rewrite Eus in Hwh. pose proof (zlook_Some_lt _ _ _ Hwh) as Hlt. unfold zlen in Hlt. rewrite seqZ_length in Hlt. rewrite zlook_seqZ in Hwh by lia. injection Hwh as <-. lia. }
    pose proof L1 as Hh. rewrite Eus in Hh. apply elem_of_seqZ in Hh. exists h. split; [rewrite zlook_drop by lia; rewrite <- Hw; f_equal; lia|]. split; [lia|]. split.
    + apply (elem_oth (da_nt a) m _ us ess H1 H3) in L3 as (_ & _ & _ & HN); [|done]. apply (near_app (da_vals this) (da_vals other) dim m prec h (m + j) HP) in HN; [|lia|lia]. replace (m + j - m) with j in HN by lia. done.
    + intros i Hi HN. apply L4; [rewrite Eus; apply elem_of_seqZ; lia|lia|]. apply (elem_oth (da_nt a) m _ us ess H1 H3); [rewrite Eus; apply elem_of_seqZ; lia|]. split; [lia|]. split; [lia|]. split; [lia|].
      apply (near_app (da_vals this) (da_vals other) dim m prec i (m + j) HP); [lia|lia|]. replace (m + j - m) with j by lia. done.
Qed.
Lemma included_throw this other prec : da_wf this -> da_wf other -> areIncludedInMe this other prec = Throw <->
  ~ (da_alloc this = true /\ da_alloc other = true /\ da_nc this = da_nc other /\ 1 <= da_nc this <= 4).
Proof.
  intros Wt Wo. split.
  - intros E (Ha & Hb & Hc & Hd). destruct (included_ok this other prec) as (? & ? & E' & _); try done. congruence.
  - intros H. unfold areIncludedInMe, checkAllocated. destruct (da_alloc this), (da_alloc other); try done.
    destruct (Z.eqb_spec (da_nc this) (da_nc other)) as [E|E]; cbn [negb ifthrow]; [|done].
    rewrite (aggregate_ok [Some this; Some other] (da_nc this)); [|done|].
    2: { intros d Hd. apply elem_of_cons in Hd as [Hd|Hd%elem_of_list_singleton]; injection Hd as ->; split; done. }
    cbn [bind da_vals da_nc]. rewrite initialised_ok. cbn [bind]. unfold findCommonTuples, checkAllocated. cbn [da_alloc da_nc].
    destruct ((da_nc this <? 1) || (4 <? da_nc this)) eqn:Eb; cbn [ifthrow bind]; [done|]. exfalso. apply H. split; [done|]. split; [done|]. split; [done|lia].
Qed.
