From Coq Require Import ZifyBool ZifyNat.
From Verif Require Import Base DataArray ArrLib StdModel StdProofs RenumSpec SearchSpec SearchProofs PermProofs IndexSpec FillLib IndexProofs2 IndexProofs3 PartSpec PartModel.

Lemma SS_filter (P : Z -> Prop) `{forall x, Decision (P x)} l : SS l -> SS (filter P l).
Proof.
  induction l as [|x l IH]; intros HS; [done|]. apply SS_cons_inv in HS as [HS Hx]. rewrite filter_cons. destruct (decide (P x)); [|auto].
  apply SS_cons; [auto|]. intros y [_ Hy]%elem_of_list_filter. auto.
Qed.
(** The ascending ids of the elements equal to [k]. *)
Definition ids_of (l : list Z) (k : Z) : list Z := filter (fun i => l @ i = Some k) (seqZ 0 (zlen l)).
Lemma ids_of_enum l k : enumerates (fun i => l @ i = Some k) (ids_of l k).
Proof.
  split.
  - apply increasing_SS. apply SS_filter. apply increasing_SS. intros i j x y Hij Hx Hy.
    pose proof (zlook_Some_lt _ _ _ Hx) as H1. pose proof (zlook_Some_lt _ _ _ Hy) as H2. rewrite zlen_seqZ in H1, H2.
    rewrite zlook_seqZ in Hx by lia. rewrite zlook_seqZ in Hy by lia. injection Hx as <-. injection Hy as <-. lia.
  - intros i. unfold ids_of. rewrite elem_of_list_filter, elem_of_seqZ. split; [tauto|]. intros Hi. split; [done|]. apply zlook_Some_lt in Hi. lia.
Qed.
Lemma filter_ext_in {A} (P Q : A -> Prop) `{forall x, Decision (P x)} `{forall x, Decision (Q x)} (l : list A) :
  (forall x, x ∈ l -> P x <-> Q x) -> filter P l = filter Q l.
Proof.
  induction l as [|x l IH]; intros Hx; [done|]. rewrite !filter_cons. rewrite IH by (intros y Hy; apply Hx; right; done).
  pose proof (Hx x (elem_of_list_here _ _)). destruct (decide (P x)), (decide (Q x)); tauto.
Qed.
Lemma ids_of_snoc l x k : ids_of (l ++ [x]) k = if decide (x = k) then ids_of l k ++ [zlen l] else ids_of l k.
Proof.
  unfold ids_of. rewrite zlen_app. change (zlen [x]) with 1. pose proof (zlen_nonneg l). rewrite seqZ_app by lia. rewrite filter_app.
  rewrite (filter_ext_in (fun i => (l ++ [x]) @ i = Some k) (fun i => l @ i = Some k) (seqZ 0 (zlen l))).
  2:{ intros i Hi%elem_of_seqZ. rewrite zlook_app_l by lia. done. }
  replace (seqZ (0 + zlen l) 1) with [zlen l] by (rewrite seqZ_cons by lia; f_equal; lia).
  rewrite filter_cons, filter_nil, zlook_snoc. destruct (decide (x = k)) as [->|Hn]; destruct (decide (Some _ = Some _)); try congruence. apply app_nil_r.
Qed.
Lemma occ_snocd x l y : occ x (l ++ [y]) = occ x l + (if decide (y = x) then 1 else 0).
Proof. unfold occ. rewrite filter_app, zlen_app, filter_cons, filter_nil. destruct (decide (y = x)); done. Qed.
Lemma ids_of_len l k : zlen (ids_of l k) = occ k l.
Proof.
  induction l as [|x l IH] using rev_ind; [done|]. rewrite ids_of_snoc, occ_snocd. destruct (decide (x = k)); [rewrite zlen_app, IH; done|lia].
Qed.
Lemma mincr_get k m k' : keys_sorted m -> mget k' (mincr k m) = if k' =? k then Some (default 0 (mget k m) + 1) else mget k' m.
Proof. intros H. unfold mincr. apply mget_mset. done. Qed.

(** What the counting loop builds. *)
Definition counts (m : list (Z * Z)) (l : list Z) : Prop :=
  keys_sorted m /\ (forall k, k ∈ m.*1 <-> k ∈ l) /\ forall k, default 0 (mget k m) = occ k l.
Lemma counts_nil : counts [] [].
Proof. split; [constructor|]. split; done. Qed.
Lemma counts_snoc m l x : counts m l -> counts (mincr x m) (l ++ [x]).
Proof.
  intros (H1 & H2 & H3). split; [apply mset_sorted; done|]. split.
  - intros k. unfold mincr. rewrite mset_keys, elem_of_sins, H2, elem_of_app, elem_of_list_singleton. tauto.
  - intros k. rewrite mincr_get by done. rewrite occ_snocd, H3, <- H3. destruct (k =? x) eqn:E.
    + assert (k = x) as -> by lia. rewrite decide_True by done. simpl. rewrite H3. done.
    + rewrite decide_False by lia. simpl. rewrite H3. lia.
Qed.
Lemma counts_all l : counts (foldl (fun m w => mincr w m) [] l) l.
Proof. induction l as [|x l IH] using rev_ind; [apply counts_nil|]. rewrite foldl_snoc. apply counts_snoc. done. Qed.
Lemma keys_sorted_get {V} (m : list (Z * V)) k n : keys_sorted m -> (k, n) ∈ m -> mget k m = Some n.
Proof.
  unfold keys_sorted. induction m as [|[k' n'] m IH]; intros HS Hin; [apply elem_of_nil in Hin; done|].
  simpl in HS. apply SS_cons_inv in HS as [HS Hlt]. simpl. apply elem_of_cons in Hin as [[= -> ->]|Hin]; [rewrite Z.eqb_refl; done|].
  assert (k' < k) by (apply Hlt; change k with (k, n).1; apply elem_of_list_fmap_1; done). replace (k =? k') with false by lia. auto.
Qed.

Lemma partition2 (m : list (Z * Z)) : keys_sorted m -> (forall k n, (k, n) ∈ m -> 0 <= n) ->
  exists m2, foldM (fun '(m2, ret, dif, id) '(k, n) =>
    let* a := alloc Z n 1 in
    Ok (mset k id m2, ret ++ [a], dif ++ [k], id + 1)) m ([], [], [], 0) = Ok (m2, (fun kn => malloc Z kn.2) <$> m, m.*1, zlen m) /\
   forall i k, m.*1 @ i = Some k -> mget k m2 = Some i.
Proof.
  intros Hs Hn.
  enough (Hw : wp (foldM (fun '(m2, ret, dif, id) '(k, n) =>
    let* a := alloc Z n 1 in
    Ok (mset k id m2, ret ++ [a], dif ++ [k], id + 1)) m ([], [], [], 0)) (fun '(m2, ret, dif, id) => ret = (fun kn => malloc Z kn.2) <$> m /\ dif = m.*1 /\ id = zlen m /\
    forall i k, m.*1 @ i = Some k -> mget k m2 = Some i) False).
  { apply wp_ok in Hw as ([[[m2 ret] dif] id] & -> & -> & -> & -> & Hm). eauto. }
  apply (wp_foldM _ (fun pre '(m2, ret, dif, id) => keys_sorted m2 /\ ret = (fun kn => malloc Z kn.2) <$> pre /\ dif = pre.*1 /\ id = zlen pre /\
    forall i k, pre.*1 @ i = Some k -> mget k m2 = Some i)).
  - split; [constructor|]. repeat (split; [done|]). intros i k Hi. change ([] @ i = Some k) in Hi; rewrite zlook_nil in Hi; done.
  - intros pre [k n] post [[[m2 ret] dif] id] Hm (Hk & -> & -> & -> & Hg).
    rewrite alloc1 by (apply (Hn k); rewrite Hm; apply elem_of_app; right; left). simpl.
    split; [apply mset_sorted; done|]. rewrite !fmap_app. repeat (split; [done|]). split; [rewrite zlen_app; done|].
    intros i k' Hi. rewrite mget_mset by done. rewrite zlook_app in Hi. rewrite zlen_fmap in Hi. destruct (i <? zlen pre) eqn:E.
    + replace (k' =? k) with false; [auto|]. apply zlook_elem in Hi. unfold keys_sorted in Hs. rewrite Hm, fmap_app in Hs. 
      apply SS_NoDup in Hs. apply NoDup_app in Hs as (_ & Hs & _). specialize (Hs _ Hi). simpl in Hs. rewrite elem_of_cons in Hs. lia.
    + simpl in Hi. rewrite zlook_cons, zlook_nil in Hi. destruct (i - zlen pre =? 0) eqn:E0; [|done]. injection Hi as <-. rewrite Z.eqb_refl. f_equal. lia.
  - intros [[[m2 ret] dif] id] (_ & H). done.
Qed.

Lemma partitionDV_ok d : da_alloc d = true -> da_nc d = 1 -> exists (ls : list (list Z)) (dif : list Z),
  partitionByDifferentValues d = Ok ((fun l : list Z => Some <$> l) <$> ls, dif) /\ enumerates (fun v => v ∈ da_vals d) dif /\ zlen ls = zlen dif /\
  forall k v, dif @ k = Some v -> exists l, ls @ k = Some l /\ enumerates (fun i => da_vals d @ i = Some v) l.
Proof.
  intros Ha Hc. unfold partitionByDifferentValues, checkAllocated, checkOneComp. rewrite Ha, Hc. cbn [negb ifthrow Z.eqb Pos.eqb].
  set (m := foldl _ _ _). pose proof (counts_all (da_vals d)) as (Hs & Hk & Ho). fold m in Hs, Hk, Ho. generalize dependent m. intros m Hs Hk Ho.
  assert (Hmo : forall k n, (k, n) ∈ m -> n = occ k (da_vals d)).
  { intros k n Hin. apply keys_sorted_get in Hin; [|done]. specialize (Ho k). rewrite Hin in Ho. done. }
  destruct (partition2 m Hs) as (m2 & -> & Hm2); [intros k n Hin; rewrite (Hmo _ _ Hin); apply occ_nonneg|]. cbn [bind].
  set (l := da_vals d) in *.
  set (st := fun pre : list Z => (fun k => (Some <$> ids_of pre k) ++ malloc Z (occ k l - occ k pre)) <$> m.*1).
  match goal with |- context[foldM ?f l ?s] => enough (Hw : wp (foldM f l s) (fun '(ret, _, _) => ret = st l) False) end.
  { apply wp_ok in Hw as ([[ret m3] id] & -> & ->). cbn [bind]. exists (ids_of l <$> m.*1), (m.*1). split; [|split; [|split]].
    - f_equal. f_equal. unfold st. rewrite <- (list_fmap_compose (ids_of l) (fun l : list Z => Some <$> l)). apply list_fmap_ext. intros i k _. simpl. rewrite Z.sub_diag, malloc_0 by lia. apply app_nil_r.
    - split; [apply increasing_SS; done|done].
    - rewrite !zlen_fmap. done.
    - intros k v Hv. rewrite zlook_fmap, Hv. simpl. eexists. split; [done|]. apply ids_of_enum. }
  apply (wp_foldM _ (fun pre '(ret, m3, id) => ret = st pre /\ counts m3 pre /\ id = zlen pre)).
  - split; [|split; [apply counts_nil|done]]. unfold st. rewrite <- list_fmap_compose. apply list_fmap_ext. intros i [k n] Hin. simpl.
    apply elem_of_list_lookup_2 in Hin. rewrite (Hmo _ _ Hin). change (occ k []) with 0. rewrite Z.sub_0_r. done.
  - intros pre w post [[ret m3] id] Hl (-> & Hcnt & ->).
    assert (Hw : w ∈ m.*1) by (apply Hk; rewrite Hl; apply elem_of_app; right; left). apply elem_of_zlook in Hw as [i Hi].
    rewrite (Hm2 _ _ Hi). simpl. unfold st at 1. 
    rewrite (rd_ok _ i ((Some <$> ids_of pre w) ++ malloc Z (occ w l - occ w pre))) by (rewrite zlook_fmap, Hi; done). cbn [bind].
    destruct Hcnt as (Hc1 & Hc2 & Hc3). rewrite Hc3.
    assert (Hlt : occ w pre < occ w l).
    { rewrite Hl. rewrite (app_assoc pre [w] post : pre ++ w :: post = (pre ++ [w]) ++ post). unfold occ. rewrite !filter_app, !zlen_app. rewrite filter_cons_True by done. rewrite filter_nil. change (zlen [w]) with 1.
      pose proof (zlen_nonneg (filter (fun y => y = w) post)). lia. }
    rewrite wrc_fill by (rewrite ?ids_of_len; lia). cbn [bind].
    assert (Hil : 0 <= i < zlen (st pre)) by (unfold st; rewrite zlen_fmap; apply zlook_Some_lt in Hi; done).
    rewrite wr_ok by done. simpl. split; [|split; [apply counts_snoc; done|rewrite zlen_app; done]].
    apply zlook_ext_lt; [rewrite zlen_zset; unfold st; rewrite !zlen_fmap; done|]. rewrite zlen_zset. intros j Hj. rewrite zlook_zset by done.
    unfold st. destruct (j =? i) eqn:E.
    + assert (j = i) as -> by lia. rewrite zlook_fmap, Hi. simpl. rewrite ids_of_snoc, occ_snocd, !decide_True by done. do 2 f_equal. f_equal. lia.
    + rewrite (zlook_fmap _ (m.*1)), (zlook_fmap _ (m.*1)). destruct (m.*1 @ j) as [k|] eqn:Ej; [|done]. simpl. assert (w <> k).
      { intros <-. assert (i = j); [|lia]. eapply (proj1 (NoDup_zlook _)); [apply SS_NoDup; exact Hs|done..]. }
      rewrite ids_of_snoc, occ_snocd, !decide_False by done. rewrite Z.add_0_r. done.
  - intros [[ret m3] id] (-> & _). done.
Qed.

Lemma partitionDV_throw d : partitionByDifferentValues d = Throw <-> bad_shape d.
Proof.
  split; [|intros H; apply bad_shape_throw; done].
  intros H. unfold bad_shape. destruct (da_alloc d) eqn:Ha; [|left; done]. destruct (decide (da_nc d = 1)) as [Hc|]; [|right; done].
  destruct (partitionDV_ok d Ha Hc) as (? & ? & H' & _). congruence.
Qed.
