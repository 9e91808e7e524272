From Coq Require Import QArith ZifyBool ZifyNat.
From stdpp Require Import gmap.
From Verif Require Import Base DataArray ArrLib FillLib RenumModel RenumSpec RenumProofs IndexModel IndexSpec IndexProofs4 IndexProofs6 SkyModel SkySpec SkyProofs SkyProofs4 CellTable UmModel UmSpec UmProofs UmProofs2 UmProofs3 UmProofs4.
Local Open Scope Z_scope.

(** * Coordinates *)
Lemma zlook_sub {A} (l : list A) a b k : 0 <= a -> a <= b -> b <= zlen l -> 0 <= k -> sub l a b @ k = if k <? b - a then l @ (a + k) else None.
Proof.
  intros. unfold sub. destruct (k <? b - a) eqn:E.
  - rewrite zlook_take by lia. rewrite zlook_drop by lia. f_equal. lia.
  - apply zlook_None. rewrite zlen_take. lia.
Qed.
Lemma sub_ext {A} (l l' : list A) a b a' b' : 0 <= a -> a <= b -> b <= zlen l -> 0 <= a' -> a' <= b' -> b' <= zlen l' -> b - a = b' - a' -> (forall k, 0 <= k < b - a -> l @ (a + k) = l' @ (a' + k)) -> sub l a b = sub l' a' b'.
Proof.
  intros. apply zlook_ext. intros k. destruct (decide (0 <= k)); [|rewrite !zlook_neg by lia; done]. rewrite !zlook_sub by lia. replace (b' - a') with (b - a) by lia. destruct (k <? b - a) eqn:?; [|done]. auto with lia.
Qed.
Lemma written_ok b nc (l : list Q) : written (DA b nc (Some <$> l)) = Ok (DA b nc l).
Proof. unfold written. cbn [da_vals da_alloc da_nc]. rewrite initialised_ok. done. Qed.
Lemma all_some {A} (l : list (option A)) : (forall k, l @ k <> Some None) -> exists l', l = Some <$> l'.
Proof.
  intros H. exists (omap id l). induction l as [|x l IH]; [done|]. destruct x as [x|]; [|exfalso; apply (H 0); done]. change (omap id (Some x :: l)) with (x :: omap id l). rewrite fmap_cons. f_equal. apply IH.
  intros k Hk. apply zlook_Some_lt in Hk as ?. apply (H (k + 1)). rewrite zlook_cons. replace (k + 1 =? 0) with false by lia. replace (k + 1 - 1) with k by lia. done.
Qed.
Lemma point_bound (d : da Q) n : da_wf d -> 0 <= n < da_nt d -> 0 <= n * da_nc d /\ n * da_nc d <= (n + 1) * da_nc d /\ (n + 1) * da_nc d <= zlen (da_vals d) /\ (n + 1) * da_nc d - n * da_nc d = da_nc d.
Proof. intros Hw Hn. destruct (da_wf_len d Hw) as (Hl & H1 & H2). rewrite Hl. nia. Qed.
Lemma point_fun m n p p' : point m n p -> point m n p' -> p = p'.
Proof. intros (d & H1 & _ & _ & ->) (d' & H2 & _ & _ & ->). congruence. Qed.
Lemma nt_pos_nc (d : da Q) n : 0 <= n < da_nt d -> da_nc d <> 0.
Proof. unfold da_nt. destruct (Z.eqb_spec (da_nc d) 0); lia. Qed.
Lemma reduce_written (d : da Q) p newNb : da_alloc d = true -> da_wf d -> 0 < da_nc d -> zlen p = da_nt d -> 0 <= newNb -> (forall v, v ∈ p -> v < newNb) -> (forall t, 0 <= t < newNb -> t ∈ p) ->
  exists l, renumberAndReduce d p newNb = Ok (DA true (da_nc d) (Some <$> l)) /\ zlen l = newNb * da_nc d /\
    forall t i, 0 <= t -> last_pos p t i -> sub l (t * da_nc d) ((t + 1) * da_nc d) = sub (da_vals d) (i * da_nc d) ((i + 1) * da_nc d).
Proof.
  intros Ha Hw Hnc Hl Hnb Hv Hall. destruct (renumberAndReduce_ok d p newNb Ha Hw Hl Hnb Hv) as (cells & -> & Hlen & H1 & _). destruct (da_wf_len d Hw) as (Hvl & Hnt & _).
  assert (Hlook : forall t i j, 0 <= t -> last_pos p t i -> 0 <= j < da_nc d -> cells @ (t * da_nc d + j) = Some <$> (da_vals d @ (i * da_nc d + j))).
  { intros t i j Ht Hlp Hj. specialize (H1 t i Ht Hlp j). destruct Hlp as [Hi _]. apply zlook_Some_lt in Hi. rewrite !ij_flat in H1 by (cbn [da_nc]; lia). done. }
  destruct (all_some cells) as [l ->].
  { intros k Hk. apply zlook_Some_lt in Hk as Hkl. set (nc := da_nc d) in *. assert (Hdm := Z.div_mod k nc ltac:(lia)). assert (Hmb := Z.mod_pos_bound k nc ltac:(lia)).
    assert (0 <= k / nc < newNb) as Ht. { rewrite Hlen in Hkl. nia. }
    destruct (last_pos_exists p (k / nc) (Hall _ Ht)) as [i Hi]. pose proof (Hlook (k / nc) i (k mod nc) ltac:(lia) Hi ltac:(lia)) as E. replace (k / nc * nc + k mod nc) with k in E by lia. rewrite Hk in E.
    destruct (da_vals d @ (i * nc + k mod nc)) eqn:E2; cbn in E; [done|]. apply zlook_None in E2. destruct Hi as [Hi _]. apply zlook_Some_lt in Hi. nia. }
  exists l. rewrite zlen_fmap in Hlen. split; [done|]. split; [done|]. intros t i Ht Hlp. pose proof Hlp as [Hi _]. assert (t < newNb) by (apply Hv; eapply zlook_elem; done). apply zlook_Some_lt in Hi as Hir.
  apply sub_ext; try nia. intros k Hk. specialize (Hlook t i k Ht Hlp ltac:(lia)). rewrite zlook_fmap in Hlook. destruct (l @ _), (da_vals d @ _); cbn in Hlook; congruence.
Qed.
Lemma renumberNodes_ok m cells nb p newNb d : stores m cells -> typed m cells -> um_coords m = Some d -> da_alloc d = true -> da_wf d -> 0 < da_nc d -> da_nt d = nb ->
  (forall n, used cells n -> n < nb) -> zlen p = nb -> 0 <= newNb -> (forall v, v ∈ p -> v < newNb) -> (forall t, 0 <= t < newNb -> t ∈ p) ->
  exists m', renumberNodes m p newNb = Ok m' /\ stores m' (rename (ren p) <$> cells) /\ typed m' (rename (ren p) <$> cells) /\ um_dim m' = um_dim m /\ has_nodes m' newNb /\ (exists d', um_coords m' = Some d' /\ da_nc d' = da_nc d) /\
    forall t i q, 0 <= t -> last_pos p t i -> point m i q -> point m' t q.
Proof.
  intros Hs Hty Hd Ha Hw Hnc Hnb Hu Hl Hn0 Hv Hall. unfold renumberNodes. rewrite Hd. rewrite <- Hnb in Hl. destruct (reduce_written d p newNb Ha Hw Hnc Hl Hn0 Hv Hall) as (l & -> & Hll & Hsub). cbn [bind].
  destruct (renumberConn_ok m cells p Hs) as (m' & -> & Hs' & (Hdim & Hco & Hts)). { intros v Hv'. rewrite Hl, Hnb. auto. }
  cbn [bind]. rewrite written_ok. cbn [bind]. eexists. split; [done|]. split; [destruct Hs' as (c & ci & ?); exists c, ci; done|]. split; [apply (typed_rename m); [done|done]|]. split; [done|].
  assert (Hnt : da_nt (DA true (da_nc d) l) = newNb) by (apply da_nt_mul; lia).
  split; [exists (DA true (da_nc d) l); split; [done|]; split; [done|]; split; [split; [cbn [da_nc]; lia|exists newNb; done]|done]|]. split; [eexists; split; [done|done]|].
  intros t i q Ht Hlp (d' & Hd' & _ & Hi & ->). rewrite Hd in Hd'. injection Hd' as <-. exists (DA true (da_nc d) l). split; [done|]. split; [done|]. split.
  { rewrite Hnt. split; [done|]. apply Hv. destruct Hlp as [Hp _]. eapply zlook_elem; done. }
  cbn [da_vals da_nc]. symmetry. apply Hsub; done.
Qed.
(** * zipCoords *)
Lemma rank_fun cells n k k' : rank_in cells n k -> rank_in cells n k' -> k = k'.
Proof.
  intros (l & Hn & Hl & <-) (l' & Hn' & Hl' & <-). assert (l ≡ₚ l') as E by (apply NoDup_Permutation; [done..|]; intros x; rewrite Hl, Hl'; done). unfold zlen. by rewrite E.
Qed.
Lemma rank_lt cells n n' k k' : used cells n -> n < n' -> rank_in cells n k -> rank_in cells n' k' -> 0 <= k < k'.
Proof.
  intros Hu Hlt (l & Hn & Hl & <-) (l' & Hn' & Hl' & <-). split; [apply zlen_nonneg|].
  assert (zlen (n :: l) <= zlen l'); [|rewrite zlen_cons in *; lia]. unfold zlen. apply Nat2Z.inj_le, submseteq_length, NoDup_submseteq.
  - apply NoDup_cons. split; [|done]. rewrite Hl. lia.
  - intros x Hx. apply Hl'. apply elem_of_cons in Hx as [->|Hx]; [done|]. apply Hl in Hx as [? ?]. split; [done|lia].
Qed.
Lemma rank_onto cells nb k t : rank_in cells nb k -> 0 <= t < k -> exists n, used cells n /\ n < nb /\ rank_in cells n t.
Proof.
  intros (l & Hn & Hl & Hk) Ht. revert Hn Hl Hk. 
  assert (G : forall j nb k, zlen (seqZ 0 nb) <= Z.of_nat j -> rank_in cells nb k -> 0 <= t < k -> exists n, used cells n /\ n < nb /\ rank_in cells n t); [|intros; apply (G (length (seqZ 0 nb)) nb k); [unfold zlen; lia|exists l; done|done]].
  clear. induction j as [|j IH]; intros nb k Hj (l & Hn & Hl & Hk) Ht.
  - exfalso. destruct l as [|x l]; [rewrite zlen_nil in Hk; lia|]. assert (x ∈ x :: l) as Hx by left. apply Hl in Hx as [[Hx0 _] Hx]. pose proof (zlen_nonneg (seqZ 0 nb)). unfold zlen in Hj. rewrite seqZ_length in Hj. lia.
  - destruct (decide (0 < nb)) as [Hp|Hp].
    2:{ exfalso. destruct l as [|x l]; [rewrite zlen_nil in Hk; lia|]. assert (x ∈ x :: l) as Hx by left. apply Hl in Hx as [[Hx0 _] Hx]. lia. }
    destruct (used_dec cells (nb - 1)) as [Hd|Hd].
    + assert (R : rank_in cells (nb - 1) (k - 1)).
      { assert (nb - 1 ∈ l) as Hin by (apply Hl; split; [done|lia]). apply elem_of_Permutation in Hin as [l' Hp']. exists l'. rewrite Hp' in Hn. apply NoDup_cons in Hn as [Hni Hn']. split; [done|]. split.
        - intros x. split; [intros Hx; assert (x ∈ l) as Hxl by (rewrite Hp'; by right); apply Hl in Hxl as [? ?]; split; [done|]; assert (x <> nb - 1) by (intros ->; done); lia|].
          intros [Hx1 Hx2]. assert (x ∈ l) as Hxl by (apply Hl; split; [done|lia]). rewrite Hp' in Hxl. apply elem_of_cons in Hxl as [->|?]; [lia|done].
        - unfold zlen in *. rewrite Hp' in Hk. cbn [length] in Hk. lia. }
      destruct (decide (t = k - 1)) as [->|Hne]; [exists (nb - 1); split; [done|]; split; [lia|done]|]. destruct (IH (nb - 1) (k - 1)) as (n & H1 & H2 & H3); [unfold zlen in *; rewrite seqZ_length in *; lia|done|lia|]. exists n. split; [done|]. split; [lia|done].
    + assert (R : rank_in cells (nb - 1) k). { exists l. split; [done|]. split; [|done]. intros x. rewrite Hl. split; intros [H1 H2]; (split; [done|]); [|lia]. assert (x <> nb - 1) by (intros ->; done). lia. }
      destruct (IH (nb - 1) k) as (n & H1 & H2 & H3); [unfold zlen in *; rewrite seqZ_length in *; lia|done|lia|]. exists n. split; [done|]. split; [lia|done].
Qed.
Lemma used_rename f cells n : used (rename f <$> cells) n <-> 0 <= n /\ exists c v, c ∈ cells /\ v ∈ c.2 /\ n = if 0 <=? v then f v else v.
Proof.
  unfold used. split.
  - intros (H0 & c & Hc & Hn). split; [done|]. apply elem_of_list_fmap in Hc as (c' & -> & Hc'). unfold rename in Hn. cbn [snd] in Hn. apply elem_of_list_fmap in Hn as (v & -> & Hv). exists c', v. done.
  - intros (H0 & c & v & Hc & Hv & ->). split; [done|]. exists (rename f c). split; [apply elem_of_list_fmap; eauto|]. unfold rename. cbn [snd]. apply elem_of_list_fmap. eauto.
Qed.
Lemma zip_ok m cells nb d : stores m cells -> typed m cells -> um_coords m = Some d -> da_alloc d = true -> da_wf d -> 0 < da_nc d -> da_nt d = nb -> (forall n, used cells n -> n < nb) ->
  exists m' tr k, zipCoordsTraducer m = Ok (m', tr) /\ zlen tr = nb /\ stores m' (rename (ren tr) <$> cells) /\ typed m' (rename (ren tr) <$> cells) /\ um_dim m' = um_dim m /\ has_nodes m' k /\
    (forall n, 0 <= n < nb -> ~ used cells n -> tr @ n = Some (-1)) /\
    (forall n, used cells n -> exists t, tr @ n = Some t /\ rank_in cells n t /\ forall q, point m n q -> point m' t q) /\
    (forall t, 0 <= t < k <-> used (rename (ren tr) <$> cells) t).
Proof.
  intros Hs Hty Hd Ha Hw Hnc Hnb Hu. assert (Hh : has_nodes m nb) by (exists d; done). pose proof (inUse_wp m cells nb Hs Hh) as W. unfold zipCoordsTraducer. destruct (getNodeIdsInUse m) as [[tr k]| | |]; cbn in W; try done.
  2:{ destruct W as (n & Hn & Hle). exfalso. specialize (Hu n Hn). lia. }
  destruct W as (Hl & _ & Hk & Htr). cbn [bind].
  assert (Hk0 : 0 <= k) by (destruct Hk as (l & _ & _ & <-); apply zlen_nonneg).
  assert (Hval : forall n t, tr @ n = Some t -> t = -1 \/ used cells n /\ rank_in cells n t).
  { intros n t Hn. apply zlook_Some_lt in Hn as Hr. destruct (used_dec cells n) as [Hd'|Hd'].
    - right. split; [done|]. destruct (Htr n) as [H1 _]; [lia|]. destruct (H1 Hd') as (k' & Hk' & E). rewrite Hn in E. injection E as ->. done.
    - left. destruct (Htr n) as [_ H1]; [lia|]. rewrite H1 in Hn by done. congruence. }
  assert (Hnn : forall n t, tr @ n = Some t -> 0 <= t -> used cells n /\ rank_in cells n t /\ t < k).
  { intros n t Hn Ht. destruct (Hval n t Hn) as [->|[H1 H2]]; [lia|]. split; [done|]. split; [done|]. apply (rank_lt cells n nb t k H1 (Hu n H1) H2 Hk). }
  assert (Honto : forall t, 0 <= t < k -> exists n, used cells n /\ tr @ n = Some t).
  { intros t Ht. destruct (rank_onto cells nb k t Hk Ht) as (n & H1 & H2 & H3). exists n. split; [done|]. destruct (Htr n) as [H4 _]; [destruct H1; lia|]. destruct (H4 H1) as (t' & H5 & H6). rewrite (rank_fun _ _ _ _ H3 H5). done. }
  destruct (renumberNodes_ok m cells nb tr k d Hs Hty Hd Ha Hw Hnc Hnb Hu Hl Hk0) as (m' & -> & Hs' & Hty' & Hdim' & Hh' & _ & Hpt).
  { intros v Hv. apply elem_of_zlook in Hv as [n Hn]. destruct (decide (0 <= v)); [|lia]. by apply (Hnn n v). }
  { intros t Ht. destruct (Honto t Ht) as (n & _ & Hn). eapply zlook_elem; done. }
  cbn [bind]. exists m', tr, k. split; [done|]. split; [done|]. split; [done|]. split; [done|]. split; [done|]. split; [done|]. split; [|split].
  - intros n Hn Hx. apply (Htr n Hn). done.
  - intros n Hn. destruct (Htr n) as [H1 _]; [split; [apply Hn|auto]|]. destruct (H1 Hn) as (t & Ht & E). exists t. split; [done|]. split; [done|]. intros q. apply Hpt; [destruct Ht as (l & _ & _ & <-); apply zlen_nonneg|].
    split; [done|]. intros n' Hlt E'. assert (0 <= t) by (destruct Ht as (l & _ & _ & <-); apply zlen_nonneg). destruct (Hnn n' t E') as (Hu' & Hr' & _); [done|]. pose proof (rank_lt cells n n' t t Hn Hlt Ht Hr'). lia.
  - intros t. rewrite used_rename. split.
    + intros Ht. split; [lia|]. destruct (Honto t Ht) as (n & (Hn0 & c & Hc & Hv) & E). exists c, n. split; [done|]. split; [done|]. replace (0 <=? n) with true by lia. unfold ren. rewrite E. done.
    + intros (Ht & c & v & Hc & Hv & E). destruct (0 <=? v) eqn:Ev; [|lia]. assert (Hus : used cells v) by (split; [lia|]; eauto). destruct (Htr v) as [H1 _]; [split; [lia|auto]|]. destruct (H1 Hus) as (t' & Ht' & E').
      unfold ren in E. rewrite E' in E. simpl in E. subst t'. split; [done|]. apply (Hnn v t E' Ht).
Qed.
(** * duplicateNodes *)
Lemma dup_map ids off : foldM (fun (s : gmap Z Z * Z) work => Ok (<[work := s.2]> s.1, s.2 + 1)) ids (∅, off) = Ok (foldl (fun (s : gmap Z Z * Z) work => (<[work := s.2]> s.1, s.2 + 1)) (∅, off) ids).
Proof. generalize ((∅ : gmap Z Z), off). induction ids as [|x ids IH]; intros s; [done|]. cbn [foldM foldl bind]. apply IH. Qed.
Lemma dup_map_ok ids off : let s := foldl (fun (s : gmap Z Z * Z) work => (<[work := s.2]> s.1, s.2 + 1)) (∅, off) ids in
  s.2 = off + zlen ids /\ forall v, match s.1 !! v with Some w => exists k, last_pos ids v k /\ w = off + k | None => v ∉ ids end.
Proof.
  induction ids as [|x ids IH] using rev_ind; [cbn [foldl]; split; [cbn [snd]; rewrite zlen_nil; lia|]; intros v; cbn [fst]; rewrite lookup_empty; apply not_elem_of_nil|]. cbn zeta in *. rewrite foldl_app. cbn [foldl].
  destruct IH as [E IH]. set (s := foldl _ (∅, off) ids) in *. cbn [fst snd]. split; [rewrite zlen_app, E; change (zlen [x]) with 1; lia|]. intros v. destruct (decide (v = x)) as [->|Hne].
  - rewrite lookup_insert. exists (zlen ids). split; [|done]. split; [apply zlook_snoc|]. intros k Hk H. apply zlook_Some_lt in H. rewrite zlen_app in H. change (zlen [x]) with 1 in H. lia.
  - rewrite lookup_insert_ne by done. specialize (IH v). destruct (s.1 !! v) as [w|].
    + destruct IH as (k & [Hk Hlast] & ->). exists k. split; [|done]. apply zlook_Some_lt in Hk as ?. split; [rewrite zlook_app_l by lia; done|]. intros k' Hk' H'. destruct (decide (k' < zlen ids)); [rewrite zlook_app_l in H' by lia; by apply (Hlast k')|].
      apply zlook_Some_lt in H' as Hb. rewrite zlen_app in Hb. change (zlen [x]) with 1 in Hb. assert (k' = zlen ids) as -> by lia. rewrite zlook_snoc in H'. congruence.
    + intros H. apply elem_of_app in H as [H|H%elem_of_list_singleton]; done.
Qed.
Lemma duplicate_ok m cells nb ids d : stores m cells -> typed m cells -> um_coords m = Some d -> da_alloc d = true -> da_wf d -> 0 < da_nc d -> da_nt d = nb -> (forall v, v ∈ ids -> 0 <= v < nb) ->
  exists m' f, duplicateNodes m ids = Ok m' /\ stores m' (rename f <$> cells) /\ typed m' (rename f <$> cells) /\ um_dim m' = um_dim m /\ has_nodes m' (nb + zlen ids) /\
    (forall v, v ∉ ids -> f v = v) /\ (forall v, v ∈ ids -> exists k, last_pos ids v k /\ f v = nb + k) /\
    (forall n q, point m n q -> point m' n q) /\ (forall k v q, ids @ k = Some v -> point m v q -> point m' (nb + k) q).
Proof.
  intros Hs Hty Hd Ha Hw Hnc Hnb Hids. unfold duplicateNodes, getNumberOfNodes, duplicateNodesInCoords. rewrite Hd. cbn [bind]. rewrite Hnb.
  assert (Hids' : ~ out_of_range (da_nt d) ids). { intros (v & Hv & Ho). specialize (Hids v Hv). lia. }
  pose proof (selectSafe_wp d ids Ha Hw) as W. destruct (mySelectByTupleIdSafe d ids) as [r| | |]; cbn in W; try done. destruct W as (_ & l & -> & Hl & Hij). cbn [bind]. rewrite written_ok. cbn [bind].
  assert (Hw2 : da_wf (DA true (da_nc d) l)) by (split; [cbn [da_nc]; lia|exists (zlen ids); split; [apply zlen_nonneg|done]]).
  rewrite (aggregate_ok [Some d; Some (DA true (da_nc d) l)] (da_nc d)); [|done|].
  2:{ intros e He. apply elem_of_cons in He as [[= ->]|He]; [done|]. apply elem_of_list_singleton in He as [= ->]. done. }
  change (omap id [Some d; Some (DA true (da_nc d) l)]) with [d; DA true (da_nc d) l]. cbn [fmap list_fmap concat da_vals]. rewrite app_nil_r. cbn [bind]. change (list_fmap Q (option Q) Some (da_vals d ++ l)) with (Some <$> (da_vals d ++ l)). rewrite written_ok. cbn [bind].
  set (m1 := setCoords m (DA true (da_nc d) (da_vals d ++ l))). assert (Hs1 : stores m1 cells) by (destruct Hs as (c & ci & ?); exists c, ci; done).
  unfold duplicateNodesInConn. rewrite dup_map. cbn [bind]. destruct (dup_map_ok ids nb) as [_ Hmp]. destruct (foldl _ (∅, nb) ids) as [mp vl]. cbn [fst snd] in Hmp.
  destruct (inConn_gen m1 cells (fun node => Ok (default node (mp !! node))) (fun node => default node (mp !! node)) Hs1) as (m' & -> & Hs' & (Hdim & Hco & Hts)); [done|].
  destruct (da_wf_len d Hw) as (Hvl & Hnt & _). pose proof (zlen_nonneg ids). assert (Hnt' : da_nt (DA true (da_nc d) (da_vals d ++ l)) = nb + zlen ids). { apply da_nt_mul; [lia|lia|]. rewrite zlen_app, Hvl, Hl, Hnb. lia. }
  exists m', (fun node => default node (mp !! node)). split; [done|]. split; [done|]. split; [by apply (typed_rename m)|]. split; [done|].
  assert (Hd' : um_coords m' = Some (DA true (da_nc d) (da_vals d ++ l))) by (rewrite Hco; done).
  split; [|split; [|split; [|split]]].
  - exists (DA true (da_nc d) (da_vals d ++ l)). split; [done|]. split; [done|]. split; [|done]. split; [cbn [da_nc]; lia|]. exists (nb + zlen ids). split; [lia|]. cbn [da_vals da_nc]. rewrite zlen_app, Hvl, Hl, Hnb. lia.
  - intros v Hv. specialize (Hmp v). destruct (mp !! v); [|done]. destruct Hmp as (k & [Hk _] & _). exfalso. apply Hv. eapply zlook_elem; done.
  - intros v Hv. specialize (Hmp v). destruct (mp !! v) as [w|]; [|done]. destruct Hmp as (k & Hk & ->). exists k. done.
  - intros n q (d0 & Hd0 & _ & Hn & ->). rewrite Hd in Hd0. injection Hd0 as <-. exists (DA true (da_nc d) (da_vals d ++ l)). split; [done|]. split; [done|]. split; [rewrite Hnt'; lia|]. cbn [da_vals da_nc].
    destruct (point_bound d n Hw Hn) as (B1 & B2 & B3 & B4). apply sub_ext; try (rewrite ?zlen_app; pose proof (zlen_nonneg l); lia). intros k Hk. rewrite zlook_app_l by lia. done.
  - intros k v q Hk (d0 & Hd0 & _ & Hn & ->). rewrite Hd in Hd0. injection Hd0 as <-. exists (DA true (da_nc d) (da_vals d ++ l)). split; [done|]. split; [done|]. apply zlook_Some_lt in Hk as Hkr. split; [rewrite Hnt'; lia|]. cbn [da_vals da_nc].
    destruct (point_bound d v Hw Hn) as (B1 & B2 & B3 & B4). apply sub_ext; try (rewrite ?zlen_app, ?Hvl, ?Hl, ?Hnb; nia). intros j Hj. specialize (Hij k v Hk j). rewrite !ij_flat in Hij by (cbn [da_nc]; lia). cbn [da_vals da_nc] in Hij. rewrite <- Hij.
    rewrite zlook_app_r by (rewrite Hvl; nia). f_equal. rewrite Hvl, Hnb. lia.
Qed.
Lemma duplicate_throw m cells nb ids d : stores m cells -> um_coords m = Some d -> da_alloc d = true -> da_wf d -> da_nt d = nb -> (exists v, v ∈ ids /\ ~ 0 <= v < nb) -> duplicateNodes m ids = Throw.
Proof.
  intros Hs Hd Ha Hw Hnb (v & Hv & Hr). unfold duplicateNodes, getNumberOfNodes, duplicateNodesInCoords. rewrite Hd. cbn [bind]. rewrite (proj2 (selectSafe_throw d ids Ha Hw)); [done|]. exists v. split; [done|]. rewrite Hnb. done.
Qed.
