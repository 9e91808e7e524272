From Verif Require Import Base DataArray ArrLib StdModel SlicesSpec SlicesModel SlicesProofs RenumSpec RenumProofs SearchSpec StdProofs SearchProofs IndexSpec IndexModel FillLib IndexProofs IndexProofs2 IndexProofs3 IndexProofs4 IndexProofs5.
From Coq Require Import ZifyBool ZifyNat.

(** ** splitInBalancedSlices *)
Lemma chain_snoc a b c r : chain_of_intervals a b r -> b <= c -> chain_of_intervals a c (r ++ [(b, c)]).
Proof.
  revert a. induction r as [|[x y] r IH]; intros a H Hbc; simpl in *; [subst; done|]. destruct H as (-> & ? & H). split; [done|]. split; [done|]. by apply IH.
Qed.
Lemma zsum_sub_snoc l a b v : 0 <= a -> a <= b -> l @ b = Some v -> zsum (sub l a (b + 1)) = zsum (sub l a b) + v.
Proof. intros. rewrite (sub_snoc l a b v) by done. apply zsum_snoc. Qed.

Definition slice_sum_ok (l : list Z) (t x y : Z) : Prop :=
  (y < zlen l -> t <= zsum (sub l x y)) /\ (x < y -> zsum (sub l x (y - 1)) < t).
Lemma split_ok d n : da_alloc d = true -> da_nc d = 1 -> 0 < n ->
  exists r, splitInBalancedSlices d n = Ok r /\ zlen r = n /\ chain_of_intervals 0 (da_nt d) r /\
    forall i x y, i < n - 1 -> r @ i = Some (x, y) -> slice_sum_ok (da_vals d) (Z.quot (zsum (da_vals d)) n) x y.
Proof.
  intros Ha Hc Hn. unfold splitInBalancedSlices. rewrite Ha, Hc. cbn [negb ifthrow Z.eqb Pos.eqb orb]. replace (n <=? 0) with false by lia. cbn [ifthrow].
  rewrite zsum_foldl. rewrite da_nt_one by done. set (l := da_vals d). set (t := Z.quot (zsum l) n). pose proof (zlen_nonneg l). apply wp_ok. wstep.
  apply (wp_forZ (fun i '(pos, r) => 0 <= pos <= zlen l /\ zlen r = i /\ (if i =? n then chain_of_intervals 0 (zlen l) r else chain_of_intervals 0 pos r) /\
     forall k x y, k < n - 1 -> r @ k = Some (x, y) -> slice_sum_ok l t x y)).
  - lia.
  - split; [lia|]. split; [done|]. split; [replace (0 =? n) with false by lia; done|]. intros k x y _ Hk. rewrite zlook_nil in Hk. done.
  - intros i [pos r] Hi (Hpos & Hr & Hch & Hs). replace (i =? n) with false in Hch by lia. wstep.
    apply (wp_whileM (fun '(p, s) => pos <= p <= zlen l /\ s = zsum (sub l pos p) /\ (pos < p -> zsum (sub l pos (p - 1)) < t)) (fun '(p, _) => Z.to_nat (zlen l - p))).
    + split; [lia|]. split; [rewrite sub_empty by lia; done|lia].
    + unfold zlen. lia.
    + intros [p s] (Hp & -> & Hlt). simpl. destruct ((zsum (sub l pos p) <? t) && (p <? zlen l)) eqn:E.
      * wstep. wstep; [lia|]. intros w Hw. simpl. split; [|lia]. split; [lia|]. split; [rewrite (zsum_sub_snoc l pos p w) by (done || lia); done|]. intros _. replace (p + 1 - 1) with p by lia. lia.
      * split; [lia|]. split; [rewrite zlen_app, Hr; done|]. split.
        -- destruct (Z.eqb_spec (i + 1) n) as [En|En]; [replace (i =? n - 1) with true by lia|replace (i =? n - 1) with false by lia]; simpl; apply chain_snoc; (done || lia).
        -- intros k x y Hk Hx. destruct (decide (k = i)) as [->|Hne].
           ++ rewrite <- Hr, zlook_snoc in Hx. replace (zlen r =? n - 1) with false in Hx by lia. simpl in Hx. injection Hx as <- <-. split; [lia|done].
           ++ apply (Hs k); [done|]. rewrite zlook_app in Hx. destruct (Z.ltb_spec k (zlen r)); [done|]. rewrite zlook_ge in Hx; [done|]. change (zlen [(pos, if negb (i =? n - 1) then p else zlen l)]) with 1. lia.
  - intros [pos r] (_ & Hr & Hch & Hs). rewrite Z.eqb_refl in Hch. simpl. done.
Qed.
Lemma split_throw d n : splitInBalancedSlices d n = Throw <-> bad_shape d \/ n <= 0.
Proof.
  split.
  - intros H. destruct (da_alloc d) eqn:Ea; [|left; by left]. destruct (decide (da_nc d = 1)) as [Ec|]; [|left; by right].
    right. destruct (Z.le_gt_cases n 0); [done|]. destruct (split_ok d n Ea Ec) as (r & Hr & _); [lia|]. congruence.
  - unfold splitInBalancedSlices. intros [[->|H]|H]; [done| |].
    + replace (da_nc d =? 1) with false by lia. rewrite orb_true_r. done.
    + destruct (negb (da_alloc d) || negb (da_nc d =? 1)); [done|]. cbn [ifthrow]. replace (n <=? 0) with true by lia. done.
Qed.

(** ** Aggregation *)
Lemma alloc_ok A n c : 0 <= n -> 0 <= c -> alloc A n c = Ok (malloc A (n * c)).
Proof.
  intros Hn Hc. assert (Hw : wp (alloc A n c) (fun r => r = malloc A (n * c)) False) by (apply wp_alloc; [lia|lia|]; f_equal; lia).
  apply wp_ok in Hw as (r & -> & ->). done.
Qed.
Lemma aggregate2_ok {A} (a1 a2 : da A) off : da_wf a1 -> da_wf a2 -> da_nc a1 = da_nc a2 -> 0 <= off <= da_nt a2 ->
  Aggregate2 (Some a1) (Some a2) off = Ok (DA true (da_nc a1) (Some <$> (da_vals a1 ++ drop (Z.to_nat (off * da_nc a1)) (da_vals a2)))).
Proof.
  intros H1 H2 Hc Ho. destruct (da_wf_len a1 H1) as (L1 & L2 & L3). destruct (da_wf_len a2 H2) as (L4 & L5 & L6). unfold Aggregate2. rewrite Hc, Z.eqb_refl. cbn [negb ifthrow].
  rewrite Hc in *. set (c := da_nc a2) in *. set (n1 := da_nt a1) in *. set (n2 := da_nt a2) in *. pose proof (zlen_nonneg (da_vals a1)).
  rewrite alloc_ok by nia. cbn [bind]. rewrite fill_start. rewrite copyc_fill by (done || nia). cbn [bind]. rewrite sub_full. simpl app at 1.
  rewrite copyc_fill; [|nia|nia|nia|nia|by simpl]. cbn [bind]. rewrite fill_done by nia. do 4 f_equal. simpl. f_equal.
  unfold sub. rewrite take_ge; [done|]. rewrite drop_length. unfold zlen in L4. assert (0 <= off * c) by nia. lia.
Qed.
Lemma aggregate2_throw {A} (a1 a2 : option (da A)) off : (forall a, a1 = Some a -> da_wf a) -> (forall a, a2 = Some a -> da_wf a /\ 0 <= off <= da_nt a) ->
  Aggregate2 a1 a2 off = Throw <-> a1 = None \/ a2 = None \/ exists x y, a1 = Some x /\ a2 = Some y /\ da_nc x <> da_nc y.
Proof.
  intros H1 H2. destruct a1 as [a1|]; [|simpl; split; [by left|done]]. destruct a2 as [a2|]; [|simpl; split; [right; by left|done]].
  destruct (decide (da_nc a1 = da_nc a2)) as [E|E].
  - destruct (H2 a2 eq_refl). rewrite aggregate2_ok by (auto). split; [done|]. intros [?|[?|(x & y & Hx & Hy & Hne)]]; congruence.
  - split; [intros _; right; right; exists a1, a2; done|intros _]. unfold Aggregate2. replace (da_nc a1 =? da_nc a2) with false by lia. done.
Qed.

Lemma omap_id_elem {A} (l : list (option A)) x : x ∈ omap id l <-> Some x ∈ l.
Proof. rewrite elem_of_list_omap. split; [intros (y & Hy & E); simpl in E; subst; done|intros H; by exists (Some x)]. Qed.
Lemma aggregate_ok {A} (arr : list (option (da A))) c : omap id arr <> [] -> (forall d, Some d ∈ arr -> da_wf d /\ da_nc d = c) ->
  Aggregate arr = Ok (DA true c (Some <$> concat (da_vals <$> omap id arr))).
Proof.
  intros Hne Hall. unfold Aggregate. destruct (omap id arr) as [|d0 rest] eqn:E; [done|].
  assert (Hd : forall d, d ∈ d0 :: rest -> da_wf d /\ da_nc d = c) by (intros d Hd; apply Hall; rewrite <- omap_id_elem, E; done).
  destruct (Hd d0) as [Hw0 Hc0]; [left|]. rewrite Hc0. assert (Hcn : 0 <= c) by (destruct (da_wf_len d0 Hw0) as (? & ? & ?); subst c; lia).
  set (ds := d0 :: rest) in *.
  assert (Hcount : foldM (fun nbt d => throw_if negb (da_nc d =? c) >>> Ok (nbt + da_nt d)) rest (da_nt d0) = Ok (zsum (da_nt <$> ds))).
  { assert (G : forall rest' s, (forall d, d ∈ rest' -> da_nc d = c) -> foldM (fun nbt (d : da A) => throw_if negb (da_nc d =? c) >>> Ok (nbt + da_nt d)) rest' s = Ok (s + zsum (da_nt <$> rest'))).
    { induction rest' as [|d r IH]; intros s Hr; [cbn [foldM]; f_equal; unfold zsum; simpl; lia|]. cbn [foldM]. rewrite (Hr d) by left. rewrite Z.eqb_refl. cbn [negb ifthrow bind].
      rewrite IH by (intros; apply Hr; by right). f_equal. rewrite fmap_cons. change (zsum (da_nt d :: (da_nt <$> r))) with (da_nt d + zsum (da_nt <$> r)). lia. }
    rewrite G; [done|]. intros d Hd'. apply Hd. by right. }
  rewrite Hcount. cbn [bind].
  assert (Hsz : zsum (da_nt <$> ds) * c = zlen (concat (da_vals <$> ds)) /\ 0 <= zsum (da_nt <$> ds)).
  { clear -Hd. induction ds as [|d ds IH]; [done|]. destruct IH as [IH1 IH2]; [intros; apply Hd; by right|]. destruct (Hd d) as [Hw Hc]; [left|]. destruct (da_wf_len d Hw) as (L1 & L2 & L3).
    rewrite !fmap_cons. change (zsum (da_nt d :: (da_nt <$> ds))) with (da_nt d + zsum (da_nt <$> ds)). simpl. rewrite zlen_app. rewrite Hc in *. unfold fmap in *. nia. }
  rewrite alloc_ok by lia. cbn [bind]. rewrite (proj1 Hsz). rewrite ost_start. set (m := zlen (concat (da_vals <$> ds))).
  pose (st := fun ps : list (list A) => (ost m ps, zlen (concat ps))). change (ost m [], 0) with (st []).
  rewrite (foldM_blocks _ (fun (d : da A) p => p = da_vals d) st ds (da_vals <$> ds)).
  - cbn [bind]. unfold st. rewrite ost_end by done. done.
  - clear. induction ds; simpl; constructor; done.
  - intros pre x b post Eb ->. unfold st. pose proof (zlen_pre pre (da_vals x) post) as Hl. rewrite <- Eb in Hl. pose proof (zlen_nonneg (concat post)). pose proof (zlen_nonneg (da_vals x)).
    rewrite ost_copy by (unfold m; lia). cbn [bind]. rewrite sub_full, concat_snoc, zlen_app. done.
Qed.
Lemma aggregate_throw {A} (arr : list (option (da A))) : (forall d, Some d ∈ arr -> da_wf d) ->
  Aggregate arr = Throw <-> (forall d, Some d ∉ arr) \/ exists d e, Some d ∈ arr /\ Some e ∈ arr /\ da_nc d <> da_nc e.
Proof.
  intros Hwf. destruct (omap id arr) as [|d0 rest] eqn:E.
  { split; [intros _; left; intros d Hd; apply omap_id_elem in Hd; rewrite E in Hd; by apply elem_of_nil in Hd|]. intros _. unfold Aggregate. rewrite E. done. }
  assert (H0 : Some d0 ∈ arr) by (apply omap_id_elem; rewrite E; left).
  destruct (Forall_or_ex (fun d => da_nc d = da_nc d0) rest) as [Hall|(d & Hd & Hne)]; [intros d _; destruct (decide (da_nc d = da_nc d0)); tauto| |].
  - assert (Hall' : forall d, Some d ∈ arr -> da_nc d = da_nc d0). { intros d Hd. apply omap_id_elem in Hd. rewrite E in Hd. apply elem_of_cons in Hd as [->|Hd]; [done|auto]. }
    rewrite (aggregate_ok arr (da_nc d0)); [|rewrite E; done|intros d Hd; split; [by apply Hwf|by apply Hall']]. split; [done|]. intros [H|(d & e & Hd & He & Hne)]; [by destruct (H d0)|].
    rewrite (Hall' d Hd), (Hall' e He) in Hne. done.
  - split; [intros _; right; exists d, d0; split; [apply omap_id_elem; rewrite E; by right|done]|intros _]. unfold Aggregate. rewrite E.
    assert (G : forall rest' s, d ∈ rest' -> foldM (fun nbt (d : da A) => throw_if negb (da_nc d =? da_nc d0) >>> Ok (nbt + da_nt d)) rest' s = Throw).
    { induction rest' as [|e r IH]; intros s Hr; [by apply elem_of_nil in Hr|]. cbn [foldM]. destruct (Z.eqb_spec (da_nc e) (da_nc d0)) as [Ee|Ee]; [|done].
      cbn [negb ifthrow bind]. apply IH. apply elem_of_cons in Hr as [->|Hr]; done. }
    rewrite G by done. done.
Qed.

(** Index arrays: [good_index d ls]: [d] is an index array whose packs have the sizes [ls]. *)
Definition index_of (o : option (da Z)) (ls : list Z) : Prop := exists d, o = Some d /\ da_alloc d = true /\ da_nc d = 1 /\ prefix_sums ls (da_vals d).
Lemma psums_cut ls i : 0 <= i <= zlen ls -> psums ls @ i = Some (zsum (take (Z.to_nat i) ls)).
Proof. intros. by apply (proj2 (psums_ok ls)). Qed.
Lemma zsum_concat lss : zsum (concat lss) = zsum (zsum <$> lss).
Proof. induction lss as [|l lss IH]; [done|]. simpl. rewrite zsum_app, IH. done. Qed.
Lemma aggregateIndexes_ok arrs lss : arrs <> [] -> Forall2 index_of arrs lss -> exists r, AggregateIndexes arrs = Ok (Some <$> r) /\ prefix_sums (concat lss) r.
Proof.
  intros Hne H. exists (psums (concat lss)). split; [|apply psums_ok]. unfold AggregateIndexes.
  pose (st := fun ls : list (list Z) => 1 + zlen (concat ls)). match goal with |- context[foldM ?f arrs 1] => change (foldM f arrs 1) with (foldM f arrs (st [])) end.
  rewrite (foldM_blocks _ index_of st arrs lss H).
  2: { intros pre x b post _ (d & -> & Hal & Hc & Hp). unfold checkAllocated. rewrite Hal, Hc. cbn [negb ifthrow Z.eqb Pos.eqb]. rewrite !da_nt_one by done. pose proof (proj1 Hp) as Hl. pose proof (zlen_nonneg b).
       replace (zlen (da_vals d) <? 1) with false by lia. cbn [ifthrow]. assert (Hz0 : da_vals d @ 0 = Some 0) by (rewrite (proj2 Hp) by lia; done). rewrite (rd_ok _ _ _ Hz0). cbn [bind Z.eqb negb ifthrow].
       unfold st. rewrite concat_snoc, zlen_app. f_equal. lia. }
  cbn [bind]. destruct arrs as [|a arrs]; [done|]. cbn [ifthrow]. unfold st. set (m := zlen (concat lss)). pose proof (zlen_nonneg (concat lss)).
  rewrite alloc1 by (unfold m; lia). cbn [bind]. replace (1 + m) with (m + 1) by lia. rewrite iost_start by (unfold m; lia). cbn [bind].
  pose (st2 := fun ls : list (list Z) => (iost m (concat ls), zlen (concat ls) + 1)). change (iost m [], 1) with (st2 []).
  rewrite (foldM_blocks _ index_of st2 _ lss H).
  { cbn [bind]. unfold st2. unfold m. rewrite iost_end. done. }
  intros pre x b post E (d & -> & Hal & Hc & Hp). unfold st2. replace (zlen (concat pre) + 1 - 1) with (zlen (concat pre)) by lia. rewrite iost_rd. cbn [bind].
  rewrite da_nt_one by done. pose proof (proj1 Hp) as Hl. pose proof (zlen_nonneg b). rewrite Hl.
  match goal with |- ?p = ?r => assert (Hw : wp p (fun s => Ok s = r) False) end.
  { apply (wp_forZ (fun k s => s = (iost m (concat pre ++ take (Z.to_nat (k - 1)) b), zlen (concat pre) + k))).
    - lia.
    - change (Z.to_nat (1 - 1)) with 0%nat. rewrite take_0, app_nil_r. done.
    - intros k s Hk ->. wstep. wstep; [lia|]. intros v Hv. rewrite (proj2 Hp) in Hv by lia. injection Hv as <-.
      destruct (zlook_lt b (k - 1)) as [y Hy]; [lia|]. pose proof (zsum_take_succ b (k - 1) y Hy) as Hs. replace (k - 1 + 1) with k in Hs by lia.
      pose proof (zlen_pre pre b post) as Hlp. rewrite <- E in Hlp. fold m in Hlp. pose proof (zlen_nonneg (concat post)).
      rewrite (iost_wr m _ y); [|rewrite zlen_app, zlen_take; lia|rewrite zlen_app, zlen_take; lia|rewrite zsum_app; lia]. simpl. f_equal; [|lia].
      replace (k + 1 - 1) with (k - 1 + 1) by lia. rewrite (take_succ b (k - 1) y Hy), app_assoc. done.
    - intros s ->. replace (zlen b + 1 - 1) with (zlen b) by lia. rewrite take_ge by (unfold zlen; lia). rewrite concat_snoc, zlen_app. do 2 f_equal. lia. }
  apply wp_ok in Hw as (r & -> & Hr). done.
Qed.
Definition bad_index (o : option (da Z)) : Prop := match o with None => True | Some d => da_alloc d = false \/ da_nc d <> 1 \/ da_vals d @ 0 <> Some 0 end.
Lemma index_of_or_bad o : (exists ls, index_of o ls) \/ bad_index o.
Proof.
  destruct o as [d|]; [|by right]. destruct (da_alloc d) eqn:Ea; [|right; by left]. destruct (decide (da_nc d = 1)) as [Ec|]; [|right; right; by left].
  destruct (decide (da_vals d @ 0 = Some 0)) as [E0|]; [|right; right; by right]. left. destruct (delta_offsets (da_vals d) E0) as (k & Hk & Hr).
  destruct (offsetsFull_ok (vec k)) as (r & Hr' & Hp); [done|done|]. exists k, d. do 3 (split; [done|]). rewrite Hr in Hr'. injection Hr' as Hr'. apply Some_fmap_inj in Hr'. subst r. done.
Qed.
Lemma bad_not_index o ls : bad_index o -> ~ index_of o ls.
Proof.
  intros Hb (d & -> & Ha & Hc & Hp). destruct Hb as [?|[?|H]]; [congruence|done|]. apply H. pose proof (zlen_nonneg ls). rewrite (proj2 Hp) by lia. done.
Qed.
Lemma aggregateIndexes_throw arrs : AggregateIndexes arrs = Throw <-> arrs = [] \/ exists o, o ∈ arrs /\ bad_index o.
Proof.
  destruct arrs as [|a arrs']; [split; [by left|done]|]. set (arrs := a :: arrs').
  destruct (Forall_or_ex (fun o => exists ls, index_of o ls) arrs) as [Hall|(o & Ho & Hn)].
  { intros o _. destruct (index_of_or_bad o) as [?|Hb]; [by left|]. right. intros [ls Hls]. by eapply bad_not_index. }
  - destruct (Forall2_has _ _ Hall) as [lss Hl]. destruct (aggregateIndexes_ok arrs lss) as (r & Hr & _); [done|done|]. rewrite Hr. split; [done|]. intros [?|(o & Ho & Hb)]; [done|].
    destruct (Hall o Ho) as [ls Hls]. exfalso. by eapply bad_not_index.
  - split; [intros _; right; exists o; split; [done|]; destruct (index_of_or_bad o) as [?|?]; [by destruct Hn|done]|intros _]. unfold AggregateIndexes.
    pose (st := fun ls : list (list Z) => 1 + zlen (concat ls)). match goal with |- context[foldM ?f arrs 1] => change (foldM f arrs 1) with (foldM f arrs (st [])) end. rewrite (foldM_blocks_throw _ index_of st arrs); [done| | | |].
    + intros x _. destruct (index_of_or_bad x) as [?|Hb]; [by left|]. right. intros ls. by apply bad_not_index.
    + intros pre x b _ (d & -> & Hal & Hc & Hp). unfold checkAllocated. rewrite Hal, Hc. cbn [negb ifthrow Z.eqb Pos.eqb]. rewrite !da_nt_one by done. pose proof (proj1 Hp) as Hl. pose proof (zlen_nonneg b).
      replace (zlen (da_vals d) <? 1) with false by lia. cbn [ifthrow]. assert (Hz0 : da_vals d @ 0 = Some 0) by (rewrite (proj2 Hp) by lia; done). rewrite (rd_ok _ _ _ Hz0). cbn [bind Z.eqb negb ifthrow].
      unfold st. rewrite concat_snoc, zlen_app. f_equal. lia.
    + intros pre x _ Hx. destruct x as [d|]; [|done]. destruct (index_of_or_bad (Some d)) as [[ls Hls]|Hb]; [by destruct (Hx ls)|]. unfold checkAllocated.
      destruct (da_alloc d) eqn:Ea; [|done]. cbn [negb ifthrow]. destruct (Z.eqb_spec (da_nc d) 1) as [Ec|]; [|done]. cbn [negb ifthrow]. rewrite da_nt_one by done.
      destruct (Z.ltb_spec (zlen (da_vals d)) 1); [done|]. cbn [ifthrow]. destruct (zlook_lt (da_vals d) 0) as [v Hv]; [lia|]. rewrite (rd_ok _ _ _ Hv). cbn [bind].
      destruct (Z.eqb_spec v 0) as [->|]; [|done]. destruct Hb as [?|[?|?]]; congruence.
    + exists o. split; [done|]. intros ls Hls. apply Hn. by exists ls.
Qed.
