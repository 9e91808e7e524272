(** Renumbering of the cells of a field. *)
From Coq Require Import QArith Qabs ZifyBool ZifyNat.
From Verif Require Import Base DataArray ArrLib StdModel StdProofs RenumModel RenumSpec RenumProofs PermProofs SetsModel IndexSpec IndexModel IndexProofs2 FillLib CellTable SkyModel SkyProofs ConnProofs2 UmModel UmSpec UmProofs UmProofs2 UmProofs10 UcModel UcProofs4 MgProofs4 GlModel GlSpec GlProofs FdModel FdSpec FdProofs FdProofs2.
Local Open Scope Z_scope.

(** * Blocks of tuples *)
Definition blk (ns : list Z) (t : Z) : list Z := seqZ (zsum (take (Z.to_nat t) ns)) (default 0 (ns @ t)).
Definition blocks (ns : list Z) (p : list Z) : list Z := concat (blk ns <$> p).
Lemma seqZ_plus a n m : 0 <= n -> 0 <= m -> seqZ a (n + m) = seqZ a n ++ seqZ (a + n) m.
Proof. intros Hn Hm. apply seqZ_app; lia. Qed.
Lemma zsum_take_nonneg ns i : (forall v, v ∈ ns -> 0 <= v) -> 0 <= zsum (take (Z.to_nat i) ns).
Proof. intros H. apply zsum_nonneg. intros v Hv. apply H. apply elem_of_take in Hv as (k & Hv & _). by eapply elem_of_list_lookup_2. Qed.
Lemma blocks_id ns k : (forall v, v ∈ ns -> 0 <= v) -> 0 <= k <= zlen ns -> blocks ns (seqZ 0 k) = seqZ 0 (zsum (take (Z.to_nat k) ns)).
Proof.
  intros Hp [Hk Hle]. revert Hle. pattern k. apply natlike_ind; [| |done]; clear k Hk.
  - intros _. done.
  - intros k Hk IH Hle. unfold blocks in *. rewrite <- Z.add_1_r. rewrite seqZ_app_r by lia. rewrite fmap_app, concat_app, IH by lia. destruct (zlook_lt ns k ltac:(lia)) as [v Hv]. rewrite (zsum_take_succ _ _ _ Hv).
    change (blk ns <$> [0 + k]) with [blk ns (0 + k)]. cbn [concat]. rewrite app_nil_r, Z.add_0_l. unfold blk. rewrite Hv. change (default 0 (Some v)) with v. rewrite (seqZ_plus 0); [by rewrite Z.add_0_l|by apply zsum_take_nonneg|apply Hp; by eapply zlook_elem].
Qed.
Lemma blocks_perm ns p : (forall v, v ∈ ns -> 0 <= v) -> is_perm (zlen ns) p -> is_perm (zsum ns) (blocks ns p).
Proof.
  intros Hp Hperm. unfold is_perm. pose proof (blocks_id ns (zlen ns) Hp ltac:(pose proof (zlen_nonneg ns); lia)) as E. rewrite firstn_all2 in E by (unfold zlen; lia). rewrite <- E. unfold blocks.
  assert (F : forall l, concat (blk ns <$> l) = flat_map (blk ns) l) by (intros l; by rewrite flat_map_concat_map). rewrite !F. apply Permutation_flat_map. exact Hperm.
Qed.
Lemma zlen_blk ns t : (forall v, v ∈ ns -> 0 <= v) -> zlen (blk ns t) = default 0 (ns @ t).
Proof. intros Hp. unfold blk. rewrite zlen_seqZ. destruct (ns @ t) as [v|] eqn:E; cbn; [|lia]. apply zlook_elem in E. specialize (Hp v E). lia. Qed.
(** The positions of the values of a cell. *)
Lemma blocks_at ns ns' p i t n k : (forall v, v ∈ ns' -> 0 <= v) -> zlen p = zlen ns -> (forall i t, p @ i = Some t -> ns' @ t = ns @ i) -> p @ i = Some t -> ns @ i = Some n -> 0 <= k < n ->
  blocks ns' p @ (zsum (take (Z.to_nat i) ns) + k) = Some (zsum (take (Z.to_nat t) ns') + k).
Proof.
  intros Hp Hl Hs Hi Hn Hk. apply zlook_Some_lt in Hi as Hb.
  assert (E : blk ns' <$> p = (blk ns' <$> take (Z.to_nat i) p) ++ blk ns' t :: (blk ns' <$> drop (Z.to_nat (i + 1)) p)).
  { rewrite <- fmap_cons, <- fmap_app. f_equal. rewrite zlook_to_nat in Hi by lia. replace (Z.to_nat (i + 1)) with (S (Z.to_nat i)) by lia. symmetry. by apply take_drop_middle. }
  unfold blocks. rewrite E, concat_app. cbn [concat].
  assert (El : zlen (concat (blk ns' <$> take (Z.to_nat i) p)) = zsum (take (Z.to_nat i) ns)).
  { rewrite zlen_concat. f_equal. rewrite <- list_fmap_compose. apply zlook_ext. intros j. rewrite zlook_fmap. destruct (decide (0 <= j < i)) as [Hj|Hj].
    - rewrite !zlook_take by lia. destruct (zlook_lt p j ltac:(lia)) as [s Hs']. rewrite Hs'. cbn. rewrite zlen_blk by done. rewrite (Hs j s Hs'). destruct (zlook_lt ns j ltac:(lia)) as [v ->]. done.
    - rewrite (proj2 (zlook_None _ _)), (proj2 (zlook_None _ _)); [done|rewrite zlen_take; lia|rewrite zlen_take; lia]. }
  rewrite zlook_app_r by lia. rewrite El. replace (zsum (take (Z.to_nat i) ns) + k - zsum (take (Z.to_nat i) ns)) with k by lia. rewrite zlook_app_l by (rewrite zlen_blk by done; rewrite (Hs i t Hi), Hn; cbn; lia).
  unfold blk. rewrite (Hs i t Hi), Hn. change (default 0 (Some n)) with n. rewrite zlook_seqZ by lia. f_equal.
Qed.

(** * The loops *)
Lemma array3_ok (body : Z -> list (option Z) -> res (list (option Z))) ns : 0 < zlen ns ->
  (forall i v a3, 1 <= i -> ns @ (i - 1) = Some v -> body i a3 = let* p := rdc a3 (i - 1) in wrc a3 i (p + v)) ->
  (let* a3 := wrc (malloc Z (zlen ns)) 0 0 in forZ 1 (zlen ns) body a3) = Ok (Some <$> ((fun t => zsum (take (Z.to_nat t) ns)) <$> seqZ 0 (zlen ns))).
Proof.
  intros Hn H. set (off := fun t => zsum (take (Z.to_nat t) ns)). rewrite (fill_start (A := Z) (zlen ns)), wrc_fill by (lia || done). cbn [bind].
  match goal with |- context [forZ ?a ?b ?f ?s0] => assert (W : wp (forZ a b f s0) (fun r => r = Some <$> (off <$> seqZ 0 (zlen ns))) False) end.
  { apply (wp_forZ (fun i r => r = (Some <$> (off <$> seqZ 0 i)) ++ malloc Z (zlen ns - i))); [lia|done| |].
    - intros i r Hi ->. destruct (zlook_lt ns (i - 1) ltac:(lia)) as [v Hv]. rewrite (H i v _ ltac:(lia) Hv). rewrite (rdc_fill _ _ (i - 1) (off (i - 1))) by (rewrite zlook_fmap, zlook_seqZ by lia; done). cbn [bind].
      rewrite wrc_fill by (rewrite ?zlen_fmap, ?zlen_seqZ; lia). cbn [wp]. f_equal; [|f_equal; lia]. rewrite seqZ_app_r, !fmap_app by lia. f_equal. change (Some <$> (off <$> [0 + i])) with [Some (off (0 + i))]. change (Some <$> [off (i - 1) + v]) with [Some (off (i - 1) + v)]. f_equal. f_equal. unfold off.
      pose proof (zsum_take_succ ns (i - 1) v Hv) as E. replace (i - 1 + 1) with i in E by lia. rewrite Z.add_0_l. lia.
    - intros r ->. rewrite Z.sub_diag. by rewrite app_nil_r. }
  apply wp_ok in W as (r & -> & ->). done.
Qed.
Lemma inner_ok (inner : Z -> list (option Z) * Z -> res (list (option Z) * Z)) b n (done0 : list Z) m : (forall k a2 j, inner k (a2, j) = let* a2 := wrc a2 j (b + k) in Ok (a2, j + 1)) -> 0 <= n <= m ->
  forZ 0 n inner ((Some <$> done0) ++ malloc Z m, zlen done0) = Ok ((Some <$> (done0 ++ seqZ b n)) ++ malloc Z (m - n), zlen done0 + n).
Proof.
  intros H Hn. match goal with |- ?X = Ok ?r => assert (W : wp X (fun s => s = r) False) end.
  { apply (wp_forZ (fun k s => s = ((Some <$> (done0 ++ seqZ b k)) ++ malloc Z (m - k), zlen done0 + k))); [lia| | |by intros s ->].
    - apply f_equal2; [|lia]. rewrite app_nil_r, Z.sub_0_r. done.
    - intros k s Hk ->. rewrite H. rewrite wrc_fill by (rewrite ?zlen_app, ?zlen_seqZ; lia). cbn [bind wp]. apply f_equal2; [|lia]. f_equal; [|f_equal; lia]. f_equal. rewrite seqZ_app_r, app_assoc by lia. done. }
  apply wp_ok in W as (s & -> & ->). done.
Qed.
Lemma array2_ok (body : Z -> list (option Z) * Z -> res (list (option Z) * Z)) ns p : (forall v, v ∈ ns -> 0 <= v) -> is_perm (zlen ns) p ->
  (forall i t v st, p @ i = Some t -> ns @ t = Some v -> exists inner, body i st = forZ 0 v inner st /\ forall k a2 j, inner k (a2, j) = let* a2 := wrc a2 j (zsum (take (Z.to_nat t) ns) + k) in Ok (a2, j + 1)) ->
  forZ 0 (zlen ns) body (malloc Z (zsum ns), 0) = Ok (Some <$> blocks ns p, zsum ns).
Proof.
  intros Hp Hperm H. pose proof (zlen_nonneg ns) as Hn. pose proof (perm_len _ _ Hn Hperm) as Hl. pose proof (blocks_perm ns p Hp Hperm) as Hb. pose proof (perm_len _ _ (zsum_nonneg _ Hp) Hb) as Hbl.
  match goal with |- ?X = Ok ?r => assert (W : wp X (fun s => s = r) False) end.
  { apply (wp_forZ (fun i s => s = ((Some <$> blocks ns (take (Z.to_nat i) p)) ++ malloc Z (zsum ns - zlen (blocks ns (take (Z.to_nat i) p))), zlen (blocks ns (take (Z.to_nat i) p))))); [lia| | |].
    - change (blocks ns (take (Z.to_nat 0) p)) with (@nil Z). change (zlen (@nil Z)) with 0. rewrite Z.sub_0_r. done.
    - intros i s Hi ->. destruct (zlook_lt p i ltac:(lia)) as [t Ht]. pose proof (perm_range _ _ _ _ Hperm Ht) as Hr. destruct (zlook_lt ns t Hr) as [v Hv]. destruct (H i t v ((Some <$> blocks ns (take (Z.to_nat i) p)) ++ malloc Z (zsum ns - zlen (blocks ns (take (Z.to_nat i) p))), zlen (blocks ns (take (Z.to_nat i) p))) Ht Hv) as (inner & -> & Hin).
      assert (E : blocks ns (take (Z.to_nat (i + 1)) p) = blocks ns (take (Z.to_nat i) p) ++ seqZ (zsum (take (Z.to_nat t) ns)) v).
      { rewrite zlook_to_nat in Ht by lia. replace (Z.to_nat (i + 1)) with (S (Z.to_nat i)) by lia. unfold blocks. rewrite (take_S_r _ _ _ Ht), fmap_app, concat_app. f_equal. change (blk ns <$> [t]) with [blk ns t]. cbn [concat]. rewrite app_nil_r. unfold blk. by rewrite Hv. }
      assert (v <= zsum ns - zlen (blocks ns (take (Z.to_nat i) p))).
      { rewrite <- Hbl. assert (zlen (blocks ns p) = zlen (blocks ns (take (Z.to_nat (i + 1)) p)) + zlen (blocks ns (drop (Z.to_nat (i + 1)) p))) as ->. { rewrite <- zlen_app. unfold blocks. rewrite <- concat_app, <- fmap_app, take_drop. done. }
        rewrite E, zlen_app, zlen_seqZ. pose proof (zlen_nonneg (blocks ns (drop (Z.to_nat (i + 1)) p))). lia. }
      assert (0 <= v) by (apply Hp; by eapply zlook_elem).
      rewrite (inner_ok inner _ v _ _ Hin) by lia. cbn [wp]. rewrite E, zlen_app, zlen_seqZ. apply f_equal2; [|lia]. f_equal. f_equal. lia.
    - intros s ->. rewrite firstn_all2 by (unfold zlen in *; lia). rewrite Hbl, Z.sub_diag, app_nil_r. done. }
  apply wp_ok in W as (s & -> & ->). done.
Qed.
Lemma sizes_nonneg d cells ns v : sizes d cells ns -> v ∈ ns -> 0 <= v.
Proof.
  intros H Hv. apply elem_of_zlook in Hv as [i Hv]. destruct d as [| |g|]; cbn [sizes] in H.
  - rewrite H, zlook_fmap in Hv. destruct (cells @ i); [|done]. injection Hv as <-. lia.
  - done.
  - destruct H as (dpc & _ & Hl & H). apply F2_pair in H as [H1 H2]. apply zlook_Some_lt in Hv as ?. destruct (zlook_lt dpc i ltac:(lia)) as [w Hw]. destruct (H2 i w v Hw Hv) as (l & _ & ->). apply zlen_nonneg.
  - apply F2_pair in H as [H1 H2]. apply zlook_Some_lt in Hv as ?. destruct (zlook_lt cells i ltac:(lia)) as [x Hx]. destruct (H2 i x v Hx Hv) as (q & Eq & _ & ->). apply (model_nbpts _ _ Eq).
Qed.
Lemma gaussArray_ok g dpc cells ns p : gd_dpc g = Some dpc -> sizes (GaussPt g) cells ns -> cells <> [] -> is_perm (zlen cells) p -> gaussArray g dpc p = Ok (blocks ns p).
Proof.
  intros E H Hne Hp. assert (Hl : zlen dpc = zlen cells) by (destruct H as (x & E' & Hl & _); congruence). destruct (proj2 (sizes_gauss g cells dpc ns E Hl) H) as [H1 H2].
  assert (Hpos : 0 < zlen ns) by (destruct cells as [|c l]; [done|]; rewrite zlen_cons in Hl; pose proof (zlen_nonneg l); lia). unfold gaussArray. rewrite (gaussTuples_ok g dpc ns E H1 H2). cbn [bind]. rewrite <- H1.
  rewrite <- (ConnProofs2.bind_assoc (wrc (malloc Z (zlen ns)) 0 0)). rewrite (array3_ok _ ns Hpos); [cbn [bind]|].
  - rewrite (array2_ok _ ns p); [cbn [bind]; apply initialised_ok|intros v Hv; by eapply sizes_nonneg|rewrite H1, Hl; done|]. intros i t v st Hi Ht. apply zlook_Some_lt in Ht as Hr. destruct (gtest _ _ _ _ (H2 t v Ht)) as (w & l & Hw & Hl' & Hb & ->). destruct st as [a2 j]. rewrite (rd_ok _ _ _ Hi). cbn [bind]. rewrite (rd_ok _ _ _ Hw). cbn [bind]. rewrite (rd_ok _ _ _ Hl'). cbn [bind].
    eexists. split; [reflexivity|]. intros k a2' j'. cbn beta iota. rewrite (rdc_ok _ _ (zsum (take (Z.to_nat t) ns))); [done|]. rewrite !zlook_fmap, zlook_seqZ by lia. done.
  - intros i v a3 Hi Hv. destruct (gtest _ _ _ _ (H2 _ v Hv)) as (w & l & Hw & Hl' & Hb & ->). rewrite (rd_ok _ _ _ Hw). cbn [bind]. rewrite (rd_ok _ _ _ Hl'). done.
Qed.
Lemma omap_some_id {X} (l : list X) : omap id (Some <$> l) = l.
Proof. induction l as [|x l IH]; [done|]. cbn. f_equal. exact IH. Qed.
(** A list read through a permutation has the same elements. *)
Lemma moved_perm {X} (l l' : list X) p n : is_perm n p -> zlen l = n -> zlen l' = n -> (forall i t, p @ i = Some t -> l' @ t = l @ i) -> l' ≡ₚ l.
Proof.
  intros Hp Hl Hl' H. pose proof (zlen_nonneg l). assert (Hpl : zlen p = n) by (apply perm_len; [lia|done]). unfold is_perm in Hp.
  assert (E1 : (fun t => l' @ t) <$> p = Some <$> l).
  { apply zlook_ext. intros i. rewrite !zlook_fmap. destruct (p @ i) as [t|] eqn:Ht; cbn.
    - rewrite (H i t Ht). apply zlook_Some_lt in Ht. destruct (zlook_lt l i ltac:(lia)) as [x ->]. done.
    - apply zlook_None in Ht. rewrite (proj2 (zlook_None l i)) by lia. done. }
  assert (E2 : (fun t => l' @ t) <$> seqZ 0 n = Some <$> l').
  { apply zlook_ext. intros i. rewrite !zlook_fmap. destruct (decide (0 <= i < n)).
    - rewrite zlook_seqZ, Z.add_0_l by lia. destruct (zlook_lt l' i ltac:(lia)) as [x Hx]. rewrite Hx. cbn. by rewrite Hx.
    - rewrite (proj2 (zlook_None (seqZ 0 n) i)), (proj2 (zlook_None l' i)) by (rewrite ?zlen_seqZ; lia). done. }
  assert (E3 : Some <$> l' ≡ₚ Some <$> l) by (rewrite <- E1, <- E2, Hp; done).
  rewrite <- (omap_some_id l), <- (omap_some_id l'). by rewrite E3.
Qed.
Lemma findPos_ok p t i : NoDup p -> p @ i = Some t -> findPos p t = i.
Proof.
  revert i. induction p as [|x l IH]; intros i Hnd H; [by rewrite zlook_nil in H|]. apply NoDup_cons in Hnd as [Hx Hnd]. rewrite zlook_cons in H. cbn [findPos]. apply zlook_Some_lt in H as Hb || idtac. destruct (Z.eqb_spec i 0) as [->|Hi].
  - injection H as ->. by rewrite Z.eqb_refl.
  - apply zlook_elem in H as Hin. destruct (Z.eqb_spec x t) as [->|]; [done|]. rewrite (IH (i - 1) Hnd H). lia.
Qed.
Lemma neArray_ok m cells ns ns' p : stores m cells -> sizes GaussNE cells ns -> cells <> [] -> is_perm (zlen cells) p -> zlen ns' = zlen ns -> (forall i t, p @ i = Some t -> ns' @ t = ns @ i) -> neArray m p = Ok (blocks ns' p).
Proof.
  intros Hs H Hne Hp Hl' Hmv. destruct (proj2 (sizes_ne m cells ns Hs) H) as [H1 H2]. pose proof (proj2 (proj1 (F2_pair _ _ _) H)) as H3.
  assert (Hpos : 0 < zlen cells) by (destruct cells as [|c l]; [done|]; rewrite zlen_cons; pose proof (zlen_nonneg l); lia). pose proof (perm_len _ _ (Z.lt_le_incl _ _ Hpos) Hp) as Hpl.
  assert (Hsum : zsum ns = zsum ns').
  { assert (Hperm : ns' ≡ₚ ns). { eapply moved_perm; [exact Hp|lia|lia|exact Hmv]. } symmetry. by apply zsum_Perm. }
  assert (Hnn : forall v, v ∈ ns' -> 0 <= v).
  { intros v Hv. apply elem_of_zlook in Hv as [t Ht]. apply zlook_Some_lt in Ht as ?. destruct (perm_surj _ _ t Hp ltac:(lia)) as [i Hi]. rewrite (Hmv i t Hi) in Ht. eapply sizes_nonneg; [exact H|by eapply zlook_elem]. }
  assert (Hmod : forall i v, ns @ i = Some v -> exists c k, cells @ i = Some c /\ GetCellModel c.1 = Ok k /\ v = cm_nbpts k).
  { intros i v Hv. apply zlook_Some_lt in Hv as ?. destruct (zlook_lt cells i ltac:(lia)) as [c Hc]. destruct (H3 i c v Hc Hv) as (k & Ek & _ & ->). by exists c, k. }
  unfold neArray. rewrite (numCells_ok m cells Hs). cbn [bind]. rewrite (neTuples_ok m cells ns Hs H1 H2). cbn [bind]. rewrite Hsum. replace (zlen cells) with (zlen ns') by lia. rewrite <- (ConnProofs2.bind_assoc (wrc (malloc Z (zlen ns')) 0 0)). rewrite (array3_ok _ ns'); [cbn [bind]|lia|].
  - rewrite (array2_ok _ ns' p Hnn); [cbn [bind]; apply initialised_ok|rewrite Hl', H1; done|]. intros i t v st Hi Ht. apply zlook_Some_lt in Ht as Hr. apply zlook_Some_lt in Hi as ?. rewrite (Hmv i t Hi) in Ht. destruct (Hmod i v Ht) as (c & k & Hc & Ek & ->). destruct st as [a2 j].
    rewrite (typeOf_ok m cells i Hs), Hc by lia. cbn [bind]. rewrite Ek. cbn [bind]. eexists. split; [reflexivity|]. intros k' a2' j'. cbn beta iota. rewrite (rd_ok _ _ _ Hi). cbn [bind]. rewrite (rdc_ok _ _ (zsum (take (Z.to_nat t) ns'))); [done|]. rewrite !zlook_fmap, zlook_seqZ by lia. done.
  - intros i v a3 Hi Hv. apply zlook_Some_lt in Hv as ?. replace (zlen p <? zlen ns') with false by lia. cbn [ubif]. rewrite firstn_all2 by (unfold zlen in *; lia). destruct (perm_surj _ _ (i - 1) Hp ltac:(lia)) as [i0 Hi0]. apply zlook_Some_lt in Hi0 as ?. rewrite (findPos_ok p (i - 1) i0) by (done || by eapply perm_nodup). rewrite (Hmv i0 _ Hi0) in Hv. destruct (Hmod i0 v Hv) as (c & k & Hc & Ek & ->).
    rewrite (typeOf_ok m cells i0 Hs), Hc by lia. cbn [bind]. rewrite Ek. done.
Qed.
(** * The arrays *)
Definition moved_arr {A} (q : list Z) (total : Z) (a a' : option (da A)) : Prop :=
  match a, a' with
  | None, None => True
  | Some a, Some a' => da_nc a' = da_nc a /\ sized a' total /\ forall x y j, q @ x = Some y -> ij a' y j = ij a x j
  | _, _ => False
  end.
Lemma sized_same {A} (a : da A) (l : list A) total : sized a total -> zlen l = zlen (da_vals a) -> sized (DA true (da_nc a) l) total.
Proof.
  intros (Ha & Hwf & Hnc & Hnt) Hl. split; [done|]. split; [|split; [done|]].
  - destruct Hwf as (Hc & n & Hn & Hv). split; [done|]. exists n. split; [done|]. cbn [da_vals da_nc]. lia.
  - rewrite <- Hnt. unfold da_nt. cbn [da_vals da_nc]. by rewrite Hl.
Qed.
Lemma inPlaceAll_ok {A} (arrs : list (option (da A))) q total : (forall a, Some a ∈ arrs -> sized a total) -> is_perm total q -> exists arrs', inPlaceAll arrs q = Ok arrs' /\ Forall2 (moved_arr q total) arrs arrs'.
Proof.
  intros Hs Hq. set (step := fun (a b : option (da A)) => moved_arr q total a b /\ match a with None => b = None | Some a => exists r, renumberInPlace a q = (Ok tt, r) /\ exists r', allWritten r = Ok r' /\ b = Some r' end).
  destruct (Forall2_has step arrs) as [bs Hb].
  { intros [a|] Hin; [|exists None; done]. destruct (Hs a Hin) as (Ha & Hwf & Hnc & Hnt). rewrite <- Hnt in Hq. destruct (renumber_ok a q Ha Hwf Hq) as (l & E & Hl & Hat). destruct (renumberInPlace_same a q Ha Hwf Hq) as (r & E' & E2). rewrite E in E'. injection E' as <-.
    exists (Some (DA true (da_nc a) l)). split.
    - split; [done|]. split; [apply sized_same; [by apply Hs|done]|]. intros x y j Hxy. by apply Hat.
    - eexists. split; [exact E2|]. exists (DA true (da_nc a) l). split; [|done]. unfold allWritten. cbn [da_vals da_alloc da_nc]. rewrite initialised_ok. done. }
  exists bs. split; [|eapply Forall2_impl; [exact Hb|by intros a b [? _]]]. unfold inPlaceAll. apply (foldM_blocks _ step (fun bs => bs) arrs bs Hb). intros pre x b post _ [_ Hx]. destruct x as [a|]; [|by rewrite Hx].
  destruct Hx as (r & E & r' & E' & ->). rewrite E. cbn [bind]. rewrite E'. done.
Qed.
(** * The field *)
Lemma values_moved {A} (arrs arrs' : list (option (da A))) q total ns ns' i t n : Forall2 (moved_arr q total) arrs arrs' -> ns @ i = Some n ->
  (forall k, 0 <= k < n -> q @ (zsum (take (Z.to_nat i) ns) + k) = Some (zsum (take (Z.to_nat t) ns') + k)) ->
  Forall2 (fun a a' => match a, a' with None, None => True | Some a, Some a' => da_nc a' = da_nc a /\ forall n k j, ns @ i = Some n -> 0 <= k < n -> value a' ns' t k j = value a ns i k j | _, _ => False end) arrs arrs'.
Proof.
  intros H Hn Hq. eapply Forall2_impl; [exact H|]. intros [a|] [a'|] Hm; try done. destruct Hm as (E & _ & Hm). split; [done|]. intros n' k j Hn' Hk. rewrite Hn in Hn'. injection Hn' as <-. unfold value. apply Hm. by apply Hq.
Qed.
Lemma moved_sized {A} (arrs arrs' : list (option (da A))) q total : Forall2 (moved_arr q total) arrs arrs' -> forall a, Some a ∈ arrs' -> sized a total.
Proof. intros H a Ha. apply elem_of_list_lookup in Ha as [i Hi]. destruct (Forall2_lookup_r _ _ _ _ _ H Hi) as ([x|] & _ & Hm); [|done]. destruct Hm as (_ & ? & _). done. Qed.
Lemma ones_sum {X} (l : list X) : zsum ((fun _ => 1) <$> l) = zlen l.
Proof. induction l as [|x l IH]; [done|]. rewrite fmap_cons. change (zsum (1 :: ((fun _ => 1) <$> l))) with (1 + zsum ((fun _ => 1) <$> l)). rewrite IH, zlen_cons. lia. Qed.
Lemma renum_field {A} (f : field A) cells ns p : carries f cells ns -> is_perm (zlen cells) p -> (fd_disc f = P0 \/ cells <> []) ->
  exists f' cells' ns', fieldRenumberCells f p false = Ok f' /\ carries f' cells' ns' /\ typed (fd_mesh f') cells' /\ same_kind (fd_disc f) (fd_disc f') /\ zlen cells' = zlen cells /\
    um_dim (fd_mesh f') = um_dim (fd_mesh f) /\ um_coords (fd_mesh f') = um_coords (fd_mesh f) /\ forall i t, p @ i = Some t -> same_cell f cells ns i f' cells' ns' t.
Proof.
  intros (Hs & Hz & Ha) Hp Hne. pose proof (zlen_nonneg cells) as Hn0. pose proof (perm_len _ _ Hn0 Hp) as Hpl. pose proof (sizes_len _ _ _ Hz) as Hnl.
  destruct (renum_ok (fd_mesh f) cells p Hs ltac:(lia)) as (m' & cells' & Em & Hs' & Ht' & Hd' & Hc' & Hcp & Hcm).
  { rewrite firstn_all2 by (unfold zlen in *; lia). by eapply perm_nodup. }
  { rewrite firstn_all2 by (unfold zlen in *; lia). intros v Hv. by apply (perm_elem _ _ _ Hp). }
  assert (Hcl : zlen cells' = zlen cells) by (unfold zlen; by rewrite Hcp). assert (Hcm' : forall i t, p @ i = Some t -> cells' @ t = cells @ i) by (intros i t Hi; apply Hcm; [apply zlook_Some_lt in Hi; lia|done]).
  destruct (moved_list ns p ltac:(by rewrite Hnl)) as (ns' & _ & Hnl' & Hnm).
  assert (Hmp : ns' ≡ₚ ns) by (eapply moved_perm; [exact Hp|lia|lia|exact Hnm]). assert (Hsum : zsum ns' = zsum ns) by (by apply zsum_Perm).
  assert (Hnn : forall v, v ∈ ns' -> 0 <= v) by (intros v Hv; rewrite Hmp in Hv; by eapply sizes_nonneg).
  (* the discretization, the tuples *)
  assert (K : exists d' q, discRenumberCells (fd_disc f) p false = Ok d' /\ sizes d' cells' ns' /\ same_kind (fd_disc f) d' /\ (forall i t, p @ i = Some t -> locAt d' t = locAt (fd_disc f) i) /\
     is_perm (zsum ns) q /\ renumberArraysForCell d' (fd_mesh f) (fd_arrs f) p false = inPlaceAll (fd_arrs f) q /\
     forall i t n k, p @ i = Some t -> ns @ i = Some n -> 0 <= k < n -> q @ (zsum (take (Z.to_nat i) ns) + k) = Some (zsum (take (Z.to_nat t) ns') + k)).
  { destruct (fd_disc f) as [| |g|] eqn:Ed; [|done| |].
    - exists P0, p. cbn [sizes] in Hz. assert (Hz' : ns' = (fun _ => 1) <$> cells').
      { apply zlook_ext. intros t. rewrite zlook_fmap. destruct (decide (0 <= t < zlen cells)) as [Hb|Hb].
        - destruct (perm_surj _ _ t Hp Hb) as [i Hi]. rewrite (Hnm i t Hi), (Hcm' i t Hi), Hz, zlook_fmap. done.
        - rewrite (proj2 (zlook_None ns' t)), (proj2 (zlook_None cells' t)) by lia. done. }
      split; [done|]. split; [done|]. split; [done|]. split; [done|]. split; [rewrite Hz, ones_sum; done|]. split; [cbn [renumberArraysForCell]; rewrite (numCells_ok _ cells Hs); done|].
      intros i t n k Hi Hn Hk. apply zlook_Some_lt in Hi as ?. pose proof (perm_range _ _ _ _ Hp Hi) as Hr. rewrite Hz, zlook_fmap in Hn. destruct (cells @ i); [|done]. injection Hn as <-. assert (k = 0) as -> by lia. rewrite Hz, Hz', <- !fmap_take, !ones_sum, !zlen_take, !Z.add_0_r. rewrite !Z.min_l by lia. rewrite !Z2Nat.id by lia. done.
    - pose proof Hz as (dpc & E & Hl & _). destruct (proj2 (sizes_gauss g cells dpc ns E Hl) Hz) as [H1 H2]. destruct (moved_list dpc p ltac:(by rewrite Hl)) as (dpc' & Er & Hdl & Hdm). set (g' := GD (Some dpc') (gd_loc g)).
      assert (Hz' : sizes (GaussPt g') cells' ns').
      { apply (sizes_gauss g' cells' dpc' ns' eq_refl ltac:(lia)). split; [lia|]. intros t v Hv. apply zlook_Some_lt in Hv as ?. destruct (perm_surj _ _ t Hp ltac:(lia)) as [i Hi]. rewrite (Hnm i t Hi) in Hv. specialize (H2 i v Hv). unfold gsize in *. cbn [gd_loc g']. rewrite (Hdm i t Hi). done. }
      exists (GaussPt g'), (blocks ns' p). split.
      { cbn [discRenumberCells]. rewrite E. cbn [permOf bind]. rewrite Er. cbn [bind da_vals]. rewrite initialised_ok. done. }
      split; [done|]. split; [done|]. split; [intros i t Hi; cbn [locAt]; unfold loc_of; rewrite E; cbn [gd_dpc gd_loc g']; by rewrite (Hdm i t Hi)|].
      split; [rewrite <- Hsum; apply blocks_perm; [done|by rewrite Hnl', Hnl]|]. split.
      { cbn [renumberArraysForCell gd_dpc g' permOf bind]. rewrite (gaussArray_ok g' dpc' cells' ns' p eq_refl Hz'); [done| |by rewrite Hcl]. intros ->. change (zlen []) with 0 in Hcl. destruct Hne as [?|Hne]; [done|]. apply Hne. destruct cells; [done|]. rewrite zlen_cons in Hcl. pose proof (zlen_nonneg cells). lia. }
      intros i t n k Hi Hn Hk. by apply (blocks_at ns ns' p i t n k Hnn ltac:(lia) Hnm).
    - assert (Hz' : sizes GaussNE cells' ns').
      { apply F2_pair in Hz as [_ Hz]. apply F2_pair. split; [lia|]. intros t c v Hc Hv. apply zlook_Some_lt in Hc as ?. destruct (perm_surj _ _ t Hp ltac:(lia)) as [i Hi]. rewrite (Hnm i t Hi) in Hv. rewrite (Hcm' i t Hi) in Hc. by eapply Hz. }
      exists GaussNE, (blocks ns' p). split; [done|]. split; [done|]. split; [done|]. split; [done|].
      split; [rewrite <- Hsum; apply blocks_perm; [done|by rewrite Hnl', Hnl]|]. split.
      { cbn [renumberArraysForCell]. rewrite (numCells_ok _ cells Hs). cbn [permOf bind]. rewrite (neArray_ok _ cells ns ns' p Hs Hz); [done| |done|done|done]. destruct Hne as [?|Hne]; done. }
      intros i t n k Hi Hn Hk. by apply (blocks_at ns ns' p i t n k Hnn ltac:(lia) Hnm). }
  destruct K as (d' & q & E1 & Hz' & Hk & Hlo & Hq & E2 & Hpos). destruct (inPlaceAll_ok (fd_arrs f) q (zsum ns) Ha Hq) as (arrs' & E3 & Hm).
  exists (FD d' m' arrs'), cells', ns'. split.
  { unfold fieldRenumberCells, renumberCellsWithoutMesh. rewrite E1. cbn [bind]. rewrite E2, E3. cbn [bind fd_mesh fd_disc fd_arrs]. rewrite Em. done. }
  split; [split; [done|split; [done|]]; rewrite Hsum; by eapply moved_sized|]. split; [done|]. split; [done|]. split; [done|]. split; [done|]. split; [done|].
  intros i t Hi. apply zlook_Some_lt in Hi as ?. split; [apply zlook_lt; lia|]. split; [by apply Hcm'|]. split; [by apply Hnm|]. split; [by apply Hlo|]. cbn [fd_arrs]. destruct (zlook_lt ns i ltac:(lia)) as [n Hn]. eapply values_moved; [exact Hm|exact Hn|]. intros k Hk'. by eapply Hpos.
Qed.
(** * With verification of the array *)
Lemma prepare_ranks l : NoDup l -> exists k, CheckAndPreparePermutationRaw l = Ok (Some <$> k) /\ ranks l k.
Proof.
  intros Hnd. pose proof (prepare_wp l) as H. destruct (CheckAndPreparePermutationRaw l) as [r| | |]; cbn in H; try done. destruct H as (_ & k & -> & Hkl & Hk). exists k. split; [done|].
  assert (Hsort : forall i p, k @ i = Some p -> exists a, l @ i = Some a /\ StdModel.sort l @ p = Some a).
  { intros i p Hi. pose proof (Hk i p Hi) as E. apply zlook_Some_lt in Hi as ?. destruct (zlook_lt l i) as [a Ha]; [lia|]. exists a. split; [done|]. congruence. }
  assert (Hslen : zlen (StdModel.sort l) = zlen l) by (unfold zlen; rewrite sort_perm; done).
  assert (HS : forall p q a b, StdModel.sort l @ p = Some a -> StdModel.sort l @ q = Some b -> a < b -> p < q).
  { intros p q a b Hp Hq Hab. destruct (decide (p < q)); [done|]. exfalso. apply zlook_Some_lt in Hp as ?. apply zlook_Some_lt in Hq as ?. destruct (decide (p = q)) as [->|]; [assert (a = b) by congruence; lia|].
    rewrite zlook_to_nat in Hp, Hq by lia. pose proof (SSle_lookup _ _ _ _ _ (sort_sorted l) Hq Hp ltac:(lia)). lia. }
  assert (Hkn : NoDup k).
  { apply NoDup_alt. intros i j p Hi Hj. rewrite <- zlook_nat in Hi, Hj. destruct (Hsort _ _ Hi) as (a & Ha & Ea). destruct (Hsort _ _ Hj) as (b & Hb & Eb). assert (a = b) as -> by congruence. rewrite zlook_nat in Ha, Hb. by eapply NoDup_lookup. }
  split.
  - apply perm_intro; [lia| |done]. intros i x Hi. destruct (Hsort i x Hi) as (a & _ & Ea). apply zlook_Some_lt in Ea. lia.
  - intros i j a b s t Hi Hj Hs Ht. destruct (Hsort i s Hs) as (a' & Ha' & Ea). destruct (Hsort j t Ht) as (b' & Hb' & Eb). assert (a' = a) as -> by congruence. assert (b' = b) as -> by congruence. split; [by apply HS|]. intros Hst.
    destruct (decide (a < b)); [done|]. destruct (decide (a = b)) as [->|]; [assert (s = t) by (eapply (proj1 (NoDup_zlook _)); [|exact Ea|exact Eb]; rewrite sort_perm; done); lia|]. pose proof (HS t s b a Eb Ea ltac:(lia)). lia.
Qed.
Lemma permOf_true l n : zlen l = n -> permOf true l n = let* l := CheckAndPreparePermutationRaw l in initialised l.
Proof. intros <-. unfold permOf. rewrite Z.ltb_irrefl. cbn [ubif]. rewrite firstn_all2 by (unfold zlen; lia). done. Qed.
Lemma mesh_check m cells l k : stores m cells -> zlen l = zlen cells -> zlen k = zlen l -> CheckAndPreparePermutationRaw l = Ok (Some <$> k) -> renumberCells m l true = renumberCells m k false.
Proof.
  intros Hs Hl Hkl Ep. unfold renumberCells, checkConnectivityFullyDefined. destruct (um_connI m) as [connI|]; [|done]. destruct (um_conn m) as [conn|]; [|done]. rewrite (numCells_ok m cells Hs). cbn [bind]. rewrite Hkl, Hl. rewrite Z.ltb_irrefl. cbn [ubif].
  rewrite !firstn_all2 by (unfold zlen in *; lia). rewrite Ep. cbn [bind]. rewrite initialised_ok. done.
Qed.
Lemma check_field {A} (f : field A) cells ns l : carries f cells ns -> zlen l = zlen cells -> NoDup l -> exists p, ranks l p /\ fieldRenumberCells f l true = fieldRenumberCells f p false.
Proof.
  intros (Hs & Hz & Ha) Hl Hnd. destruct (prepare_ranks l Hnd) as (k & Ek & Hr). exists k. split; [done|]. assert (Hkl : zlen k = zlen l) by (destruct Hr as [Hp _]; apply perm_len; [apply zlen_nonneg|done]).
  assert (P : forall n, n = zlen cells -> permOf true l n = permOf false k n) by (intros n ->; rewrite permOf_true by done; rewrite Ek; cbn [bind]; rewrite initialised_ok; done).
  assert (E1 : discRenumberCells (fd_disc f) l true = discRenumberCells (fd_disc f) k false).
  { destruct (fd_disc f) as [| |g|]; try done. destruct Hz as (dpc & E & Hdl & _). cbn [discRenumberCells]. rewrite E. by rewrite P. }
  unfold fieldRenumberCells, renumberCellsWithoutMesh. rewrite E1. destruct (discRenumberCells (fd_disc f) k false) as [d'| | |] eqn:Ed; try done. cbn [bind].
  assert (E2 : renumberArraysForCell d' (fd_mesh f) (fd_arrs f) l true = renumberArraysForCell d' (fd_mesh f) (fd_arrs f) k false).
  { destruct (fd_disc f) as [| |g|].
    - injection Ed as <-. cbn [renumberArraysForCell]. rewrite (numCells_ok _ cells Hs). cbn [bind]. by rewrite P.
    - done.
    - destruct Hz as (dpc & E & Hdl & _). cbn [discRenumberCells] in Ed. rewrite E in Ed. cbn [permOf bind] in Ed. destruct (moved_list dpc k) as (dpc' & Er & Hdl' & _); [rewrite Hdl, <- Hl; apply Hr|]. rewrite Er in Ed. cbn [bind da_vals] in Ed. rewrite initialised_ok in Ed. injection Ed as <-. cbn [renumberArraysForCell gd_dpc]. by rewrite P by lia.
    - injection Ed as <-. cbn [renumberArraysForCell]. rewrite (numCells_ok _ cells Hs). cbn [bind]. by rewrite P. }
  rewrite E2. destruct (renumberArraysForCell d' (fd_mesh f) (fd_arrs f) k false); try done. cbn [bind fd_mesh]. by rewrite (mesh_check _ cells l k Hs Hl Hkl Ek).
Qed.
Lemma check_throw {A} (f : field A) cells ns l : carries f cells ns -> zlen l = zlen cells -> ~ NoDup l -> fieldRenumberCells f l true = Throw.
Proof.
  intros (Hs & Hz & Ha) Hl Hnd. assert (P : forall n, n = zlen cells -> permOf true l n = Throw).
  { intros n ->. rewrite permOf_true by done. pose proof (prepare_wp l) as H. destruct (CheckAndPreparePermutationRaw l) as [r| | |]; cbn in H; try done. by destruct H. }
  unfold fieldRenumberCells, renumberCellsWithoutMesh. destruct (fd_disc f) as [| |g|]; [|done| |].
  - cbn [discRenumberCells bind renumberArraysForCell]. rewrite (numCells_ok _ cells Hs). cbn [bind]. by rewrite P.
  - destruct Hz as (dpc & E & Hdl & _). cbn [discRenumberCells]. rewrite E. by rewrite P.
  - cbn [discRenumberCells bind renumberArraysForCell]. rewrite (numCells_ok _ cells Hs). cbn [bind]. by rewrite P.
Qed.
(** Fields on nodes: only the mesh changes. *)
Lemma renum_nodes {A} (f : field A) cells p : fd_disc f = P1 -> stores (fd_mesh f) cells -> is_perm (zlen cells) p ->
  exists m' cells', fieldRenumberCells f p false = Ok (FD P1 m' (fd_arrs f)) /\ stores m' cells' /\ typed m' cells' /\ um_dim m' = um_dim (fd_mesh f) /\ um_coords m' = um_coords (fd_mesh f) /\ zlen cells' = zlen cells /\ forall i t, p @ i = Some t -> cells' @ t = cells @ i.
Proof.
  intros Hd Hs Hp. pose proof (zlen_nonneg cells) as Hn0. pose proof (perm_len _ _ Hn0 Hp) as Hpl.
  destruct (renum_ok (fd_mesh f) cells p Hs ltac:(lia)) as (m' & cells' & Em & Hs' & Ht' & Hd' & Hc' & Hcp & Hcm).
  { rewrite firstn_all2 by (unfold zlen in *; lia). by eapply perm_nodup. }
  { rewrite firstn_all2 by (unfold zlen in *; lia). intros v Hv. by apply (perm_elem _ _ _ Hp). }
  exists m', cells'. split; [unfold fieldRenumberCells, renumberCellsWithoutMesh; rewrite Hd; cbn [discRenumberCells bind renumberArraysForCell fd_mesh]; rewrite Em; done|].
  split; [done|]. split; [done|]. split; [done|]. split; [done|]. split; [unfold zlen; by rewrite Hcp|]. intros i t Hi. apply Hcm; [apply zlook_Some_lt in Hi; lia|done].
Qed.
(** An empty mesh: the write at the first place of an array of no value. *)
Lemma renum_empty {A} (f : field A) l check : carries f [] [] -> fd_disc f <> P0 -> fieldRenumberCells f l check = UB.
Proof.
  intros (Hs & Hz & Ha) Hd. assert (P : forall x, check = true -> CheckAndPreparePermutationRaw (take (Z.to_nat 0) x) = Ok []) by (intros x _; done).
  unfold fieldRenumberCells, renumberCellsWithoutMesh. destruct (fd_disc f) as [| |g|]; [done|done| |].
  - destruct Hz as (dpc & E & Hdl & _). destruct dpc as [|x dpc]; [|rewrite zlen_cons in Hdl; pose proof (zlen_nonneg dpc); change (zlen (@nil cell)) with 0 in Hdl; lia]. cbn [discRenumberCells]. rewrite E. change (zlen (@nil Z)) with 0.
    assert (Q : forall y, (let* r := renumber (vec (@nil Z)) y in let* v := initialised (da_vals r) in Ok (GaussPt (GD (Some v) (gd_loc g)))) = Ok (GaussPt (GD (Some []) (gd_loc g)))) by (intros y; done).
    assert (R : exists y, permOf check l 0 = Ok y). { destruct check; [|by eexists]. unfold permOf. pose proof (zlen_nonneg l). replace (zlen l <? 0) with false by lia. cbn [ubif]. rewrite P by done. by eexists. }
    destruct R as [y Ey]. rewrite Ey. cbn [bind]. rewrite Q. cbn [bind renumberArraysForCell gd_dpc]. change (zlen (@nil Z)) with 0. rewrite Ey. cbn [bind]. unfold gaussArray, gaussTuples. cbn [gd_dpc]. done.
  - cbn [discRenumberCells bind renumberArraysForCell]. rewrite (numCells_ok _ [] Hs). cbn [bind]. change (zlen (@nil cell)) with 0.
    assert (R : exists y, permOf check l 0 = Ok y). { destruct check; [|by eexists]. unfold permOf. pose proof (zlen_nonneg l). replace (zlen l <? 0) with false by lia. cbn [ubif]. rewrite P by done. by eexists. }
    destruct R as [y Ey]. rewrite Ey. cbn [bind]. unfold neArray, neTuples. rewrite (numCells_ok _ [] Hs). done.
Qed.
