(** Neighbours of nodes through the edges. *)
From Coq Require Import QArith ZifyBool ZifyNat.
From Verif Require Import Base DataArray ArrLib FillLib StdModel StdProofs IndexSpec RenumSpec PartSpec CellTable CellModel CellSpec IndexProofs3 IndexProofs4 IndexProofs5 SkyModel SkyProofs UmModel UmSpec UmProofs UmProofs2 UmProofs4 UmProofs8 UcModel UcSpec UcProofs UcProofs2 UcProofs3 DsModel DsSpec DsProofs2 DsProofs3 DsProofs4 DsProofs5 DsProofs6 ZnModel ZnSpec ZnProofs4.
Local Open Scope Z_scope.

(** The loop over the cells of the nodes of a mesh of segments of two nodes. *)
Definition nodePass (nbNodes : Z) (rn rni c1D : list Z) : res (list Z) :=
  forZ 0 nbNodes (fun i r =>
    let* a := rd rni i in let* b := rd rni (i + 1) in
    ub_if (b <? a) >>>
    forZ a b (fun w r =>
      let* e := rd rn w in
      let* n := rd c1D (3 * e + 1) in
      let* v := (if n =? i then rd c1D (3 * e + 2) else Ok n) in
      ub_if (zlen rn <=? zlen r) >>> Ok (r ++ [v])) r) [].

Lemma zsum3 (l : list Z) : (forall x, x ∈ l -> x = 3) -> zsum l = 3 * zlen l.
Proof. induction l as [|x l IH]; intros H; [done|]. change (zsum (x :: l)) with (x + zsum l). rewrite zlen_cons, IH by (intros; apply H; by right). rewrite (H x) by left. lia. Qed.
Lemma con_elem k cells n e : e ∈ cells_of_node k cells n <-> exists c, cells @ (e - k) = Some c /\ n ∈ c.2 /\ k <= e.
Proof.
  revert k. induction cells as [|c cells IH]; intros k; cbn [cells_of_node].
  - rewrite elem_of_nil. split; [done|]. intros (c & Hc & _). by rewrite zlook_nil in Hc.
  - rewrite elem_of_app, IH, elem_of_replicate. split.
    + intros [[-> Hc]|(c' & Hc & Hn & Hk)].
      * exists c. rewrite Z.sub_diag. split; [done|]. split; [|lia]. apply elem_of_list_In, (count_occ_In Z.eq_dec). lia.
      * exists c'. rewrite zlook_cons. destruct (Z.eqb_spec (e - k) 0); [lia|]. replace (e - k - 1) with (e - (k + 1)) by lia. split; [done|]. split; [done|lia].
    + intros (c' & Hc & Hn & Hk). rewrite zlook_cons in Hc. destruct (Z.eqb_spec (e - k) 0).
      * left. injection Hc as ->. split; [lia|]. apply elem_of_list_In, (count_occ_In Z.eq_dec) in Hn. lia.
      * right. exists c'. replace (e - (k + 1)) with (e - k - 1) by lia. split; [done|]. split; [done|lia].
Qed.

Lemma nodePass_ok nb (es : list cell) conn connI r rI : skyline (pk <$> es) conn connI -> (forall c, c ∈ es -> zlen c.2 = 2) -> 0 <= nb ->
  skyline (cells_of_node 0 es <$> seqZ 0 nb) r rI ->
  exists nss out, nodePass nb r rI conn = Ok out /\ skyline nss out rI /\ zlen nss = nb /\
    forall i ns, nss @ i = Some ns -> Forall2 (fun e j => exists c, es @ e = Some c /\ ends c i j) (cells_of_node 0 es i) ns.
Proof.
  intros Hsky H2 Hnb Hrev.
  assert (Hpos : forall e c, es @ e = Some c -> exists a b, c.2 = [a; b] /\ conn @ (3 * e + 1) = Some a /\ conn @ (3 * e + 2) = Some b).
  { intros e c He. pose proof (zlook_Some_lt _ _ _ He) as Her. destruct (cell_range es conn connI e c Hsky He) as (p & E1 & _ & _ & _ & Hk & _).
    assert (p = 3 * e) as ->.
    { apply rd_inv in E1. rewrite (proj2 (proj2 Hsky)) in E1 by (rewrite !zlen_fmap; lia). injection E1 as <-. rewrite zsum3; [rewrite zlen_take, !zlen_fmap; lia|].
      intros x Hx. apply elem_of_take in Hx as (k0 & Hx & _). apply elem_of_list_lookup_2 in Hx. apply elem_of_list_fmap in Hx as (q & -> & Hq). apply elem_of_list_fmap in Hq as (c' & -> & Hc'). unfold pk. rewrite zlen_cons, H2 by done. lia. }
    specialize (H2 c (zlook_elem _ _ _ He)). destruct (c.2) as [|a [|b [|x l]]] eqn:Ec; [done|done| |rewrite !zlen_cons in H2; pose proof (zlen_nonneg l); lia].
    exists a, b. split; [done|]. split; [apply rd_inv; rewrite <- (Hk 0 a) by done; f_equal; lia|]. apply rd_inv. rewrite <- (Hk 1 b) by done. f_equal. lia. }
  set (cs := cells_of_node 0 es <$> seqZ 0 nb) in *.
  assert (Lcs : zlen cs = nb) by (unfold cs; rewrite zlen_fmap, zlen_seqZ; lia).
  set (P := fun (i : Z) (e j : Z) => exists c, es @ e = Some c /\ ends c i j).
  assert (W : wp (nodePass nb r rI conn) (fun out => exists nss, out = concat nss /\ zlen nss = nb /\ forall i ns, nss @ i = Some ns -> Forall2 (P i) (cells_of_node 0 es i) ns) False).
  { unfold nodePass. apply (wp_forZ (fun k out => exists nss, out = concat nss /\ zlen nss = k /\ forall i ns, nss @ i = Some ns -> Forall2 (P i) (cells_of_node 0 es i) ns)); [lia| | |].
    - exists []. split; [done|]. split; [done|]. intros i ns Hi. by rewrite zlook_nil in Hi.
    - intros i out Hi (nss & -> & Ln & HF).
      assert (Hc : cs @ i = Some (cells_of_node 0 es i)). { unfold cs. rewrite zlook_fmap, zlook_seqZ by lia. done. }
      destruct (sky_pack _ _ _ _ _ Hrev Hc) as (a & b & Ha & Hb & H0 & Hab & Hbl & Ep). rewrite (rd_ok _ _ _ Ha). cbn [bind]. rewrite (rd_ok _ _ _ Hb). cbn [bind]. unfold ubif at 1. replace (b <? a) with false by lia.
      assert (Hlen : zlen (concat nss) = a).
      { rewrite (proj2 (proj2 Hrev)) in Ha by (rewrite zlen_fmap; lia). injection Ha as <-. rewrite zsum_pre. f_equal. rewrite <- fmap_take. apply zlook_ext_lt; [rewrite !zlen_fmap, zlen_take; lia|].
        intros k Hk. rewrite zlen_fmap in Hk. destruct (zlook_lt nss k Hk) as [ns Hns]. rewrite !zlook_fmap, Hns. rewrite zlook_take by lia. unfold cs. rewrite zlook_fmap, zlook_seqZ by lia. rewrite Z.add_0_l. cbn. f_equal.
        specialize (HF k ns Hns). unfold zlen. by rewrite (Forall2_length _ _ _ HF). }
      apply (wp_forZ (fun w out => exists ns, out = concat nss ++ ns /\ zlen ns = w - a /\ Forall2 (P i) (take (Z.to_nat (w - a)) (cells_of_node 0 es i)) ns)); [lia| | |].
      + exists []. rewrite app_nil_r, Z.sub_diag. split; [done|]. split; [done|]. constructor.
      + intros w out Hw (ns & -> & Lns & HFn). assert (Hwr : exists e, r @ w = Some e /\ cells_of_node 0 es i @ (w - a) = Some e).
        { destruct (zlook_lt r w ltac:(lia)) as [e He]. exists e. split; [done|]. rewrite Ep, zlook_sub by lia. rewrite <- He. f_equal. lia. }
        destruct Hwr as (e & He & He'). rewrite (rd_ok _ _ _ He). cbn [bind]. pose proof (zlook_elem _ _ _ He') as Hin. apply con_elem in Hin as (c & Hce & Hic & _). rewrite Z.sub_0_r in Hce.
        destruct (Hpos e c Hce) as (x & y & Exy & Hx & Hy). rewrite (rd_ok _ _ _ Hx). cbn [bind]. rewrite (rd_ok _ _ _ Hy).
        assert (Hv : exists v, (if x =? i then Ok y else Ok x) = Ok v /\ ends c i v).
        { rewrite Exy in Hic. unfold ends. rewrite Exy. destruct (Z.eqb_spec x i) as [->|Hne]; [exists y; split; [done|by left]|exists x; split; [done|]]. apply elem_of_cons in Hic as [?|Hic]; [congruence|]. apply elem_of_list_singleton in Hic as ->. by right. }
        destruct Hv as (v & -> & Hv). cbn [bind]. unfold ubif. rewrite zlen_app. replace (zlen r <=? zlen (concat nss) + zlen ns) with false by lia. cbn [wp].
        exists (ns ++ [v]). rewrite app_assoc. split; [done|]. split; [rewrite zlen_app; change (zlen [v]) with 1; lia|].
        replace (Z.to_nat (w + 1 - a)) with (S (Z.to_nat (w - a))) by lia. rewrite (take_S_r _ _ e) by (by rewrite zlook_to_nat in He' by lia). apply Forall2_app; [done|]. constructor; [|constructor]. by exists c.
      + intros out (ns & -> & Lns & HFn). exists (nss ++ [ns]). rewrite concat_app. cbn [concat]. rewrite app_nil_r. split; [done|]. split; [rewrite zlen_app; change (zlen [ns]) with 1; lia|].
        intros k ns' Hk. rewrite zlook_app in Hk. destruct (Z.ltb_spec k (zlen nss)); [by apply HF|]. pose proof (zlook_Some_lt _ _ _ Hk) as Hr. change (zlen [ns]) with 1 in Hr. assert (k = i) as -> by lia. replace (i - zlen nss) with 0 in Hk by lia. injection Hk as <-.
        rewrite take_ge in HFn; [done|]. assert (zlen (cells_of_node 0 es i) = b - a) by (rewrite Ep, zlen_sub by lia; lia). unfold zlen in *. lia.
    - done. }
  apply wp_ok in W as (out & -> & nss & -> & Ln & HF). exists nss, (concat nss). split; [done|]. split; [|done]. split; [done|].
  assert (E : zlen <$> nss = zlen <$> cs); [|rewrite E; apply Hrev]. apply zlook_ext_lt; [rewrite !zlen_fmap; lia|].
  intros k Hk. rewrite zlen_fmap in Hk. destruct (zlook_lt nss k Hk) as [ns Hns]. rewrite !zlook_fmap, Hns. unfold cs. rewrite zlook_fmap, zlook_seqZ by lia. rewrite Z.add_0_l. cbn. f_equal.
  specialize (HF k ns Hns). unfold zlen. by rewrite (Forall2_length _ _ _ HF).
Qed.

Lemma ends_same (c c' : cell) i j : ends c i j -> ends c' i j -> same_nodes c.2 c'.2.
Proof. intros [E|E] [E'|E']; unfold same_nodes; rewrite E, E'; (split; [done|]); intros n; rewrite !elem_of_cons; tauto. Qed.
Lemma same_ends (c c' : cell) i j : i <> j -> same_nodes c'.2 c.2 -> ends c i j -> ends c' i j.
Proof.
  intros Hne [Hl Hm] He. assert (H2 : zlen c'.2 = 2) by (rewrite Hl; destruct He as [-> | ->]; done). assert (Hc : forall n, n ∈ c'.2 <-> n = i \/ n = j) by (intros n; rewrite Hm; destruct He as [-> | ->]; rewrite !elem_of_cons, elem_of_nil; tauto).
  unfold ends. destruct (c'.2) as [|a [|b [|x l]]]; [done|done| |rewrite !zlen_cons in H2; pose proof (zlen_nonneg l); lia].
  pose proof (proj1 (Hc a) ltac:(apply elem_of_cons; by left)) as Ha. pose proof (proj1 (Hc b) ltac:(rewrite !elem_of_cons; tauto)) as Hb.
  pose proof (proj2 (Hc i) ltac:(by left)) as Hi. pose proof (proj2 (Hc j) ltac:(by right)) as Hj. rewrite !elem_of_cons, elem_of_nil in Hi, Hj.
  destruct Ha as [-> | ->], Hb as [-> | ->]; [exfalso; destruct Hj as [?|[?|?]]; congruence|by left|by right|exfalso; destruct Hi as [?|[?|?]]; congruence].
Qed.

Lemma neighbours_of m m1 es nb : has_nodes m nb -> is_Some (um_conn m) -> is_Some (um_connI m) -> has_nodes m1 nb -> stores m1 es -> (forall c, c ∈ es -> zlen c.2 = 2 /\ forall n, n ∈ c.2 -> 0 <= n < nb) ->
  getMeshDimension m = Ok (um_dim m) ->
  (if um_dim m =? 3 then let* (m1, _, _, _, _) := explode3DMeshTo1D m in Ok m1
     else if um_dim m =? 2 then let* (m1, _, _, _, _) := buildDescendingConnectivity m in Ok m1
     else if um_dim m =? 1 then Ok m
     else Throw) = Ok m1 ->
  exists nss out outI, computeNeighborsOfNodes m = Ok (out, outI) /\ skyline nss out outI /\ zlen nss = nb /\
    forall i ns, nss @ i = Some ns -> Forall2 (fun e j => exists c, es @ e = Some c /\ ends c i j) (cells_of_node 0 es i) ns.
Proof.
  intros (d & Hd & Ha & Hw & Hnt) [cn Hcn] [ci Hci] Hn1 Hs1 He Hdim Hm1. destruct (da_wf_len d Hw) as (_ & Hnb0 & _). rewrite Hnt in Hnb0.
  destruct (stores_get m1 es Hs1) as (conn & connI & Ec & EI & Hsky & _).
  destruct (rev_ok m1 es nb Hs1 Hn1) as (r & rI & Er & Hrev). { intros v (_ & c & Hc & Hv). destruct (He c Hc) as [_ H]. apply H in Hv. lia. }
  destruct (nodePass_ok nb es conn connI r rI Hsky ltac:(intros c Hc; by apply He) Hnb0 Hrev) as (nss & out & Eo & Ho).
  exists nss, out, rI. split; [|exact Ho]. unfold computeNeighborsOfNodes, checkFullyDefined. rewrite Hcn, Hci, Hd, Hdim. cbn [bind]. rewrite Hm1. cbn [bind]. rewrite Er. cbn [bind]. unfold unchecked. rewrite Ec, EI, Hnt.
  unfold nodePass in Eo. rewrite Eo. done.
Qed.

Lemma nodes1D_ok m cells nb : stores m cells -> has_nodes m nb -> um_dim m = 1 -> (forall c, c ∈ cells -> zlen c.2 = 2 /\ forall n, n ∈ c.2 -> 0 <= n < nb) ->
  exists nss out outI, computeNeighborsOfNodes m = Ok (out, outI) /\ skyline nss out outI /\ zlen nss = nb /\
    forall i ns, nss @ i = Some ns -> Forall2 (fun e j => exists c, cells @ e = Some c /\ ends c i j) (cells_of_node 0 cells i) ns.
Proof.
  intros Hs Hn Hd Hc. pose proof Hs as (conn & connI & E1 & E2 & _). assert (K1 : is_Some (um_conn m)) by (rewrite E1; eauto). assert (K2 : is_Some (um_connI m)) by (rewrite E2; eauto). apply (neighbours_of m m cells nb); try done.
  - unfold getMeshDimension. rewrite Hd. done.
  - rewrite Hd. done.
Qed.

Lemma descends_nodes fss new dss nb nss : descends fss new dss -> (forall f, f ∈ concat fss -> good_son 1 nb f /\ zlen f.2 = 2) ->
  (forall i ns, nss @ i = Some ns -> Forall2 (fun e j => exists c, new @ e = Some c /\ ends c i j) (cells_of_node 0 new i) ns) ->
  forall i ns, nss @ i = Some ns -> NoDup ns /\ forall j, j ∈ ns <-> exists f, f ∈ concat fss /\ ends f i j.
Proof.
  intros HD Hg HF i ns Hi. specialize (HF i ns Hi). pose proof HD as (H1 & Hu & H3 & _).
  assert (Hnew : forall t c, new @ t = Some c -> c ∈ concat fss). { intros t c Hc. destruct (H3 t c Hc) as (k & _ & Hk). by eapply zlook_elem. }
  assert (Hne : forall (f : cell) a b, f ∈ concat fss -> ends f a b -> a <> b).
  { intros f a b Hf He <-. destruct (Hg f Hf) as [(_ & _ & n & Hc) _]. destruct He as [E|E]; rewrite E in Hc; cbn in Hc; destruct (Z.eq_dec a n); lia. }
  assert (Hnd : NoDup (cells_of_node 0 new i)).
  { apply NoDup_ListNoDup, (NoDup_count_occ' Z.eq_dec). intros e He. apply elem_of_list_In in He. pose proof He as He0. apply con_elem in He as (c & Hc & Hic & _). rewrite (con_count 0 new i e c Hc).
    rewrite Z.sub_0_r in Hc. destruct (Hg c (Hnew _ _ Hc)) as [(_ & _ & n & Hn) H2]. destruct (c.2) as [|a [|b [|x l]]] eqn:E; [done|done| |rewrite !zlen_cons in H2; pose proof (zlen_nonneg l); lia].
    assert (Hab : a <> b) by (apply (Hne c a b (Hnew _ _ Hc)); by left). rewrite !elem_of_cons, elem_of_nil in Hic. cbn. destruct Hic as [-> |[-> |[]]].
    - destruct (Z.eq_dec a a); [|done]. destruct (Z.eq_dec b a); [congruence|done].
    - destruct (Z.eq_dec a b); [congruence|]. destruct (Z.eq_dec b b); done. }
  split.
  - apply NoDup_zlook. intros k l j Hk Hl. destruct (F2_at_r _ _ _ _ _ HF Hk) as (e & He & c & Hc & Hec), (F2_at_r _ _ _ _ _ HF Hl) as (e' & He' & c' & Hc' & Hec').
    assert (e = e') as <- by (apply (Hu e e' c c' Hc Hc'); by eapply ends_same). exact (proj1 (NoDup_zlook _) Hnd k l e He He').
  - intros j. split.
    + intros Hj. apply elem_of_zlook in Hj as [k Hk]. destruct (F2_at_r _ _ _ _ _ HF Hk) as (e & He & c & Hc & Hec). exists c. split; [by eapply Hnew|done].
    + intros (f & Hf & He). pose proof (Hne f i j Hf He) as Hij. apply elem_of_zlook in Hf as [p Hp]. destruct (F2_at _ _ _ _ _ (D_concat fss new dss HD) Hp) as (t & _ & f' & Hf' & Hs).
      pose proof (same_ends f f' i j Hij Hs He) as He'. assert (Ht : t ∈ cells_of_node 0 new i). { apply con_elem. exists f'. rewrite Z.sub_0_r. split; [done|]. split; [|apply zlook_Some_lt in Hf'; lia]. destruct He' as [-> | ->]; rewrite !elem_of_cons; tauto. }
      apply elem_of_zlook in Ht as [k Hk]. destruct (F2_at _ _ _ _ _ HF Hk) as (j' & Hj' & c & Hc & Hec). assert (c = f') as -> by congruence. assert (j' = j) as ->; [|by eapply zlook_elem].
      destruct Hec as [E|E], He' as [E'|E']; rewrite E in E'; injection E' as; congruence.
Qed.

Lemma nodes2D_ok m cells fss nb : stores m cells -> has_nodes m nb -> um_dim m = 2 -> Forall2 (sons MinusOneSonsGenerator) cells fss -> (forall f, f ∈ concat fss -> good_son 1 nb f /\ zlen f.2 = 2) ->
  exists nss out outI, computeNeighborsOfNodes m = Ok (out, outI) /\ skyline nss out outI /\ zlen nss = nb /\
    forall i ns, nss @ i = Some ns -> NoDup ns /\ forall j, j ∈ ns <-> exists f, f ∈ concat fss /\ ends f i j.
Proof.
  intros Hs Hn Hd HF Hg. destruct (fast_ok MinusOneSonsGenerator m cells fss nb Hs Hn HF ltac:(lia) ltac:(cbn; lia)) as (m1 & new & dss & desc & descI & rd' & rdI & E & Hs1 & _ & _ & Hc1 & HD & _).
  { intros f Hf. cbn. rewrite Hd. by apply Hg. }
  pose proof Hs as (conn & connI & E1 & E2 & _). assert (K1 : is_Some (um_conn m)) by (rewrite E1; eauto). assert (K2 : is_Some (um_connI m)) by (rewrite E2; eauto).
  destruct (neighbours_of m m1 new nb) as (nss & out & outI & Eo & Ho & Ln & HFo); try done.
  - destruct Hn as (d & Hd' & Hn). exists d. rewrite Hc1. done.
  - intros c Hc. apply elem_of_zlook in Hc as [t Hc]. pose proof HD as (_ & _ & H3 & _). destruct (H3 t c Hc) as (k & _ & Hk). destruct (Hg c (zlook_elem _ _ _ Hk)) as [(_ & Hr & _) H2]. done.
  - unfold getMeshDimension. rewrite Hd. done.
  - rewrite Hd. cbn [Z.eqb Pos.eqb]. unfold buildDescendingConnectivity. rewrite E. done.
  - exists nss, out, outI. split; [done|]. split; [done|]. split; [done|]. by apply (descends_nodes fss new dss nb nss HD).
Qed.
Lemma nodes3D_ok m cells fss nb : stores m cells -> has_nodes m nb -> um_dim m = 3 -> Forall2 (sons MinusTwoSonsGenerator) cells fss -> (forall f, f ∈ concat fss -> good_son 1 nb f /\ zlen f.2 = 2) ->
  exists nss out outI, computeNeighborsOfNodes m = Ok (out, outI) /\ skyline nss out outI /\ zlen nss = nb /\
    forall i ns, nss @ i = Some ns -> NoDup ns /\ forall j, j ∈ ns <-> exists f, f ∈ concat fss /\ ends f i j.
Proof.
  intros Hs Hn Hd HF Hg. destruct (explode31_ok m cells fss nb Hs Hn HF Hd) as (m1 & new & dss & desc & descI & rd' & rdI & E & Hs1 & _ & _ & Hc1 & HD & _).
  { intros f Hf. by apply Hg. }
  pose proof Hs as (conn & connI & E1 & E2 & _). assert (K1 : is_Some (um_conn m)) by (rewrite E1; eauto). assert (K2 : is_Some (um_connI m)) by (rewrite E2; eauto).
  destruct (neighbours_of m m1 new nb) as (nss & out & outI & Eo & Ho & Ln & HFo); try done.
  - destruct Hn as (d & Hd' & Hn). exists d. rewrite Hc1. done.
  - intros c Hc. apply elem_of_zlook in Hc as [t Hc]. pose proof HD as (_ & _ & H3 & _). destruct (H3 t c Hc) as (k & _ & Hk). destruct (Hg c (zlook_elem _ _ _ Hk)) as [(_ & Hr & _) H2]. done.
  - unfold getMeshDimension. rewrite Hd. done.
  - rewrite Hd. cbn [Z.eqb Pos.eqb]. rewrite E. done.
  - exists nss, out, outI. split; [done|]. split; [done|]. split; [done|]. by apply (descends_nodes fss new dss nb nss HD).
Qed.
