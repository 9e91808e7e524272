From Coq Require Import QArith ZifyBool ZifyNat.
From stdpp Require Import gmap.
From Verif Require Import Base DataArray ArrLib FillLib ConnProofs2 RenumModel RenumSpec RenumProofs2 SlicesModel SlicesSpec SlicesProofs SetsModel PermProofs IndexModel IndexSpec IndexProofs2 IndexProofs3 IndexProofs4 IndexProofs6 SkyModel SkyProofs CellTable UmModel UmSpec UmProofs UmProofs2 UmProofs3 UmProofs4.
Local Open Scope Z_scope.

(** * Number of nodes of the cells *)
Lemma nbsep P ns R : forZ (zlen P) (zlen P + zlen ns) (fun j n => let* v := rd (P ++ ns ++ R) j in Ok (if v =? -1 then n + 1 else n)) 0 = Ok (zlen ns - zlen (List.filter (fun v => negb (v =? -1)) ns)).
Proof.
  rewrite (inner_loop P ns R (fun v n => Ok (if v =? -1 then n + 1 else n))). enough (G : forall k, foldM (fun s v => Ok (if v =? -1 then s + 1 else s)) ns k = Ok (k + (zlen ns - zlen (List.filter (fun v => negb (v =? -1)) ns)))) by apply (G 0).
  induction ns as [|v ns IH]; intros k; [cbn; f_equal; change (zlen (@nil Z)) with 0; lia|]. cbn [foldM bind]. rewrite IH. f_equal. cbn [List.filter]. rewrite zlen_cons. destruct (v =? -1); cbn [negb]; rewrite ?zlen_cons; lia.
Qed.
Lemma forZ_write {A} (body : Z -> list (option A) -> res (list (option A))) (vs : list A) : (forall i v l, vs @ i = Some v -> body i l = wrc l i v) -> forZ 0 (zlen vs) body (malloc A (zlen vs)) = Ok (Some <$> vs).
Proof.
  intros Hb. pose proof (zlen_nonneg vs). set (st := fun pre : list A => (Some <$> pre) ++ malloc A (zlen vs - zlen pre)).
  replace (malloc A (zlen vs)) with (st []) by (unfold st; simpl; rewrite Z.sub_0_r; done).
  rewrite (forZ_blocks body st (zlen vs) vs eq_refl). { unfold st. rewrite Z.sub_diag. change (malloc A 0) with (@nil (option A)). rewrite app_nil_r. done. }
  intros pre b post E. assert (Hl : zlen vs = zlen pre + 1 + zlen post) by (rewrite E, zlen_app, zlen_cons; lia). pose proof (zlen_nonneg post).
  rewrite (Hb _ b). 2:{ rewrite E, zlook_app_r by lia. rewrite Z.sub_diag. done. }
  unfold st. rewrite wrc_fill by lia. rewrite zlen_app. change (zlen [b]) with 1. do 3 f_equal. lia.
Qed.
Lemma nbNodes_ok m cells : stores m cells -> computeNbOfNodesPerCell m = Ok (Some <$> ((fun c : cell => zlen (nodes_of c)) <$> cells)).
Proof.
  intros Hs. destruct (stores_get m cells Hs) as (conn & connI & Ec & EI & Hsky & _). unfold computeNbOfNodesPerCell, checkConnectivityFullyDefined. rewrite Ec, EI, (numCells_ok m cells Hs). cbn [bind].
  rewrite alloc1 by apply zlen_nonneg. cbn [bind]. rewrite <- (zlen_fmap (fun c : cell => zlen (nodes_of c)) cells). apply forZ_write. intros i v l Hi. rewrite zlook_fmap in Hi. destruct (cells @ i) as [c|] eqn:Hc; [|done]. injection Hi as <-.
  destruct (cell_at cells conn connI i c Hsky Hc) as (a & E1 & E2 & Ha & Hb & P & R & -> & HP). rewrite (rd_ok _ _ _ E1). cbn [bind]. rewrite (rd_ok _ _ _ E2). cbn [bind].
  assert ((P ++ pk c ++ R) @ a = Some c.1) as Et. { rewrite zlook_app_r by lia. rewrite HP, Z.sub_diag. done. }
  rewrite (rd_ok _ _ _ Et). cbn [bind]. unfold nodes_of. destruct (c.1 =? NORM_POLYHED); cbn [negb andb].
  - pose proof (zlen_nonneg c.2). replace (_ <? a + 1) with false by lia. cbn [ubif]. rewrite split_pk. replace (a + 1) with (zlen (P ++ [c.1])) by (rewrite zlen_snoc1; lia). rewrite nbsep. cbn [bind]. f_equal. rewrite zlen_snoc1. lia.
  - f_equal. assert (List.filter (fun v => true) c.2 = c.2) as ->; [|lia]. clear. induction (c.2) as [|v l IH]; [done|]. cbn [List.filter]. by rewrite IH.
Qed.
Lemma filter_dups (f : Z -> bool) l : NoDup l -> NoDup (List.filter f l).
Proof. intros H. apply NoDup_ListNoDup, List.NoDup_filter, NoDup_ListNoDup, H. Qed.
Lemma nbEff_ok m cells : stores m cells -> exists l, computeEffectiveNbOfNodesPerCell m = Ok (Some <$> l) /\ zlen l = zlen cells /\
  forall i (c : cell) k, cells @ i = Some c -> l @ i = Some k -> exists ns, NoDup ns /\ (forall v, v ∈ ns <-> v ∈ nodes_of c) /\ zlen ns = k.
Proof.
  intros Hs. destruct (stores_get m cells Hs) as (conn & connI & Ec & EI & Hsky & _). unfold computeEffectiveNbOfNodesPerCell, checkConnectivityFullyDefined. rewrite Ec, EI, (numCells_ok m cells Hs). cbn [bind].
  rewrite alloc1 by apply zlen_nonneg. cbn [bind]. set (f := fun c : cell => if negb (c.1 =? NORM_POLYHED) then remove_dups c.2 else List.filter (fun v => negb (v =? -1)) (remove_dups c.2)).
  exists ((fun c => zlen (f c)) <$> cells). split; [|split].
  - rewrite <- (zlen_fmap (fun c => zlen (f c)) cells). apply forZ_write. intros i v l Hi. rewrite zlook_fmap in Hi. destruct (cells @ i) as [c|] eqn:Hc; [|done]. injection Hi as <-.
    destruct (cell_at cells conn connI i c Hsky Hc) as (a & E1 & E2 & Ha & Hb & P & R & -> & HP). rewrite (rd_ok _ _ _ E1). cbn [bind]. rewrite (rd_ok _ _ _ E2). cbn [bind].
    assert ((P ++ pk c ++ R) @ a = Some c.1) as Et. { rewrite zlook_app_r by lia. rewrite HP, Z.sub_diag. done. }
    pose proof (zlen_nonneg c.2). replace (_ <? a + 1) with false by lia. cbn [ubif]. rewrite (rd_ok _ _ _ Et). rewrite split_pk. replace (a + 1) with (zlen (P ++ [c.1])) by (rewrite zlen_snoc1; lia). rewrite collect_ok. cbn [bind]. done.
  - apply zlen_fmap.
  - intros i c k Hc Hk. rewrite zlook_fmap, Hc in Hk. injection Hk as <-. exists (f c). unfold f, nodes_of. destruct (c.1 =? NORM_POLYHED); cbn [negb andb].
    + split; [apply filter_dups, NoDup_remove_dups|]. split; [|done]. intros v. rewrite !elem_of_list_In, !filter_In, <- !elem_of_list_In, elem_of_remove_dups. done.
    + split; [apply NoDup_remove_dups|]. split; [|done]. intros v. rewrite elem_of_remove_dups, !elem_of_list_In, filter_In. tauto.
Qed.

(** * fillCellIdsToKeepFromNodeIds *)
Lemma finder_ok ids sz : 0 <= sz -> exists ff, foldM (fun ff work => if (0 <=? work) && (work <? sz) then wr ff work true else Ok ff) ids (replicate (Z.to_nat sz) false) = Ok ff /\
  forall v, 0 <= v < sz -> ff @ v = Some (bool_decide (v ∈ ids)).
Proof.
  intros Hsz. assert (G : exists ff, foldM (fun ff work => if (0 <=? work) && (work <? sz) then wr ff work true else Ok ff) ids (replicate (Z.to_nat sz) false) = Ok ff /\ zlen ff = sz /\ forall v, 0 <= v < sz -> ff @ v = Some (bool_decide (v ∈ ids))).
  { induction ids as [|w ids IH] using rev_ind.
    - eexists. split; [reflexivity|]. split; [rewrite zlen_replicate; lia|]. intros v Hv. rewrite zlook_replicate by lia. done.
    - destruct IH as (ff & E & Hl & Hff). rewrite foldM_app, E. cbn [bind foldM]. destruct ((0 <=? w) && (w <? sz)) eqn:Ew.
      + rewrite wr_ok by lia. cbn [bind]. eexists. split; [done|]. split; [by rewrite zlen_zset|]. intros v Hv. rewrite zlook_zset by lia. destruct (Z.eqb_spec v w) as [->|N].
        * rewrite bool_decide_true; [done|]. apply elem_of_app. right. left.
        * rewrite Hff by done. f_equal. apply bool_decide_ext. rewrite elem_of_app, elem_of_list_singleton. tauto.
      + eexists. split; [done|]. split; [done|]. intros v Hv. rewrite Hff by done. f_equal. apply bool_decide_ext. rewrite elem_of_app, elem_of_list_singleton. split; [by left|]. intros [?|?]; [done|lia]. }
  destruct G as (ff & E & _ & H). eauto.
Qed.
Lemma asc_snoc l x : ascending l -> (forall y, y ∈ l -> y < x) -> ascending (l ++ [x]).
Proof.
  induction l as [|a l IH]; intros Ha Hx; [split; [intros y Hy; inversion Hy|done]|]. destruct Ha as (H1 & H2). split.
  - intros y [Hy|Hy%elem_of_list_singleton]%elem_of_app; [by apply H1|]. subst. apply Hx. left.
  - apply IH; [done|]. intros y Hy. apply Hx. by right.
Qed.
Lemma select_loop {A} (body : Z -> list Z -> res (list Z)) (ok : A -> bool) (l : list A) : (forall i x k, l @ i = Some x -> body i k = Ok (if ok x then k ++ [i] else k)) ->
  exists r, forZ 0 (zlen l) body [] = Ok r /\ ascending r /\ forall i, i ∈ r <-> exists x, l @ i = Some x /\ ok x = true.
Proof.
  intros Hb. assert (W : wp (forZ 0 (zlen l) body []) (fun r => ascending r /\ forall i, i ∈ r <-> exists x, l @ i = Some x /\ ok x = true) False).
  { apply (wp_forZ (fun k r => ascending r /\ forall i, i ∈ r <-> i < k /\ exists x, l @ i = Some x /\ ok x = true)).
    - apply zlen_nonneg.
    - split; [done|]. intros i. split; [intros H; inversion H|]. intros (? & x & Hx & _). apply zlook_Some_lt in Hx. lia.
    - intros k r Hk (Ha & Hr). destruct (zlook_lt l k Hk) as [x Hx]. rewrite (Hb k x r Hx). cbn [wp]. destruct (ok x) eqn:E.
      + split; [apply asc_snoc; [done|]; intros y Hy; apply Hr in Hy; lia|]. intros i. rewrite elem_of_app, elem_of_list_singleton, Hr. split.
        * intros [(? & ?)| ->]; [split; [lia|done]|]. split; [lia|eauto].
        * intros (Hi & y & Hy & Ho). destruct (decide (i = k)); [by right|]. left. split; [lia|eauto].
      + split; [done|]. intros i. rewrite Hr. split; intros (Hi & y & Hy & Ho); (split; [|eauto]); [lia|]. destruct (decide (i = k)) as [->|]; [|lia]. congruence.
    - intros r (Ha & Hr). split; [done|]. intros i. rewrite Hr. split; [intros (_ & ?); done|]. intros (x & Hx & Ho). split; [|eauto]. apply zlook_Some_lt in Hx. lia. }
  destruct (forZ _ _ _ _) as [r| | |]; cbn in W; try done. eauto.
Qed.
Lemma hits_loop ff (ids P ns R : list Z) : (forall v, v ∈ ns -> 0 <= v -> ff @ v = Some (bool_decide (v ∈ ids))) ->
  exists r h, forZ (zlen P) (zlen P + zlen ns) (fun j '(ref, hit) => let* v := rd (P ++ ns ++ R) j in if 0 <=? v then (let* f := rd ff v in Ok (ref + 1, if (f : bool) then hit + 1 else hit)) else Ok (ref, hit)) (0, 0) = Ok (r, h) /\
    0 <= h <= r /\ (r = h <-> forall n, n ∈ ns -> 0 <= n -> n ∈ ids) /\ (h <> 0 <-> exists n, n ∈ ns /\ 0 <= n /\ n ∈ ids).
Proof.
  intros Hff. pose proof (inner_loop P ns R (fun v (s : Z * Z) => let '(ref, hit) := s in if 0 <=? v then (let* f := rd ff v in Ok (ref + 1, if (f : bool) then hit + 1 else hit)) else Ok (ref, hit)) (0, 0)) as E.
  match goal with |- exists r h, ?a = _ /\ _ => match type of E with ?b = _ => assert (a = b) as -> end end.
  { apply forZ_ext'. intros j [x y] _. done. }
  rewrite E. clear E P R. induction ns as [|v ns IH] using rev_ind.
  - exists 0, 0. split; [done|]. split; [lia|]. split; [split; [intros _ n Hn; inversion Hn|done]|split; [lia|intros (n & Hn & _); inversion Hn]].
  - destruct IH as (r & h & E & Hh & H1 & H2). { intros w Hw. apply Hff, elem_of_app. by left. } rewrite foldM_app, E. cbn [bind foldM]. destruct (0 <=? v) eqn:E0.
    + rewrite (rd_ok _ _ _ (Hff v ltac:(apply elem_of_app; right; left) ltac:(lia))). cbn [bind]. destruct (bool_decide_reflect (v ∈ ids)) as [Hv|Hv]; eexists _, _; (split; [reflexivity|]); (split; [lia|]); split.
      * split; [intros Er n Hn Hn0|intros Hall; enough (r = h) by lia; apply H1; intros n Hn; apply Hall, elem_of_app; by left]. apply elem_of_app in Hn as [Hn|Hn%elem_of_list_singleton]; [apply H1; [lia|done..]|by subst].
      * split; [intros _; exists v; split; [apply elem_of_app; right; left|split; [lia|done]]|lia].
      * split; [lia|]. intros Hall. exfalso. apply Hv, Hall; [apply elem_of_app; right; left|lia].
      * rewrite H2. split; [intros (n & Hn & ?); exists n; split; [apply elem_of_app; by left|done]|]. intros (n & [Hn|Hn%elem_of_list_singleton]%elem_of_app & ?); [eauto|]. subst. tauto.
    + exists r, h. split; [done|]. split; [lia|]. split.
      * rewrite H1. split; intros Hall n Hn Hn0; [|apply Hall; [apply elem_of_app; by left|done]]. apply elem_of_app in Hn as [Hn|Hn%elem_of_list_singleton]; [by apply Hall|lia].
      * rewrite H2. split; intros (n & Hn & Hn0 & ?); exists n; (split; [|done]); [apply elem_of_app; by left|]. apply elem_of_app in Hn as [Hn|Hn%elem_of_list_singleton]; [done|lia].
Qed.
Lemma liesOn_dec b ids c : Decision (lies_on b ids c).
Proof.
  unfold lies_on. destruct b.
  - destruct (decide (Forall (fun n => 0 <= n -> n ∈ ids) c.2)) as [H|H]; [left; intros n Hn; by apply (proj1 (Forall_forall _ _) H)|right; intros Hn; apply H, Forall_forall; done].
  - destruct (decide (Exists (fun n => 0 <= n /\ n ∈ ids) c.2)) as [H|H]; [left|right]; [apply Exists_exists in H; destruct H as (n & ? & ? & ?); eauto|]. intros (n & ? & ? & ?). apply H, Exists_exists. eauto.
Qed.
Lemma keep_ok m cells ids b : stores m cells ->
  exists l, fillCellIdsToKeepFromNodeIds m ids b = Ok l /\ ascending l /\ forall i, i ∈ l <-> exists c, cells @ i = Some c /\ lies_on b ids c.
Proof.
  intros Hs. destruct (stores_get m cells Hs) as (conn & connI & Ec & EI & Hsky & _). unfold fillCellIdsToKeepFromNodeIds, checkConnectivityFullyDefined. rewrite Ec, EI, (numCells_ok m cells Hs).
  destruct conn as [|x rest] eqn:Econn.
  - exists []. split; [done|]. split; [done|]. destruct cells as [|c cells]; [|destruct Hsky as [E _]; discriminate E]. intros i. split; [intros H; inversion H|]. intros (c & Hc & _). by rewrite zlook_nil in Hc.
  - cbn [bind]. set (sz := Z.max (foldr Z.max x rest) 0 + 1). destruct (finder_ok ids sz) as (ff & -> & Hff); [lia|]. cbn [bind]. rewrite <- Econn in *.
    edestruct (select_loop (A := cell)) with (l := cells) (ok := fun c => if liesOn_dec b ids c then true else false) as (r & E & Ha & Hr); cycle 1.
    { rewrite E. exists r. split; [done|]. split; [done|]. intros i. rewrite Hr. split; intros (c & Hc & H); exists c; (split; [done|]); destruct (liesOn_dec b ids c); done. }
    intros i c k Hc. destruct (cell_at cells conn connI i c Hsky Hc) as (a & E1 & E2 & Ha & Hb & P & R & EP & HP). rewrite (rd_ok _ _ _ E1). cbn [bind]. rewrite (rd_ok _ _ _ E2). cbn [bind].
    pose proof (zlen_nonneg c.2). replace (_ <? a + 1) with false by lia. cbn [ubif]. rewrite EP, split_pk. replace (a + 1) with (zlen (P ++ [c.1])) by (rewrite zlen_snoc1; lia).
    destruct (hits_loop ff ids (P ++ [c.1]) c.2 R) as (rf & h & -> & Hh & H1 & H2).
    { intros v Hv Hv0. apply Hff. split; [done|]. assert (v ∈ conn) as Hin by (eapply conn_elem; [done|by eapply zlook_elem|done]). rewrite Econn in Hin. apply max_elem in Hin. unfold sz. lia. }
    cbn [bind]. f_equal. unfold lies_on. destruct b, (liesOn_dec _ ids c) as [Hl|Hl]; cbn in Hl; try (apply H1 in Hl as ->); try (apply H2 in Hl).
    + rewrite Z.eqb_refl. done.
    + replace (rf =? h) with false; [rewrite andb_false_r; done|]. symmetry. apply Z.eqb_neq. intros E. by apply Hl, H1.
    + replace (h =? 0) with false by lia. rewrite andb_false_r. done.
    + replace (h =? 0) with true; [rewrite andb_false_r; done|]. symmetry. apply Z.eqb_eq. destruct (decide (h = 0)); [done|]. exfalso. by apply Hl, H2.
Qed.
