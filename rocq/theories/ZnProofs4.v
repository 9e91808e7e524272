(** Zones of a mesh; neighbours of nodes. *)
From stdpp Require Import relations.
From Coq Require Import QArith ZifyBool ZifyNat.
From Verif Require Import Base DataArray ArrLib FillLib StdModel StdProofs IndexSpec RenumSpec PartSpec CellTable CellModel CellSpec IndexProofs3 IndexProofs4 IndexProofs5 SkyModel SkyProofs UmModel UmSpec UmProofs UmProofs2 UmProofs4 UmProofs8 UcModel UcSpec UcProofs UcProofs3 DsModel DsSpec DsProofs4 DsProofs5 DsProofs6 ZnModel ZnSpec ZnProofs ZnProofs2 ZnProofs3.
Local Open Scope Z_scope.

Lemma sky_link nss out outI i j : skyline nss out outI -> link out outI i j <-> exists ns, nss @ i = Some ns /\ j ∈ ns.
Proof.
  intros H. split.
  - intros (p & Hp & Hj). pose proof Hp as (a & b & Ha & Hb & _). apply zlook_Some_lt in Ha, Hb. rewrite (proj1 (proj2 H)), zlen_fmap in Hb. destruct (zlook_lt nss i ltac:(lia)) as [ns Hns]. exists ns. split; [done|].
    pose proof (sky_pack _ _ _ _ _ H Hns) as Hq. destruct Hp as (a1 & b1 & Ha1 & Hb1 & _ & _ & _ & ->), Hq as (a2 & b2 & Ha2 & Hb2 & _ & _ & _ & ->). assert (a2 = a1) as -> by congruence. assert (b2 = b1) as -> by congruence. done.
  - intros (ns & Hns & Hj). exists ns. split; [|done]. by eapply sky_pack.
Qed.
Lemma sky_graph nss out outI n : skyline nss out outI -> zlen nss = n -> (forall ns j, ns ∈ nss -> j ∈ ns -> 0 <= j < n) -> graph n out outI.
Proof.
  intros H Hn Hr. split; [rewrite (proj1 (proj2 H)), zlen_fmap; lia|]. intros i Hi. destruct (zlook_lt nss i ltac:(lia)) as [ns Hns]. exists ns. split; [by eapply sky_pack|]. intros j. apply Hr. by eapply zlook_elem.
Qed.
Lemma adjacent_sym fss i j : adjacent fss i j -> adjacent fss j i.
Proof. intros (Hn & fs & fs' & f & f' & H1 & H2 & H3 & H4 & Hs). split; [done|]. exists fs', fs, f', f. split; [done|]. split; [done|]. split; [done|]. split; [done|]. destruct Hs as [Hl Hm]. split; [done|]. intros x. by rewrite Hm. Qed.
Lemma adjacent_range fss i j : adjacent fss i j -> 0 <= j < zlen fss.
Proof. intros (_ & fs & fs' & f & f' & _ & H & _). by eapply zlook_Some_lt. Qed.

Lemma mesh_zones_ok m cells fss nb : stores m cells -> has_nodes m nb -> Forall2 (sons MinusOneSonsGenerator) cells fss -> 1 <= um_dim m <= 3 ->
  (forall f, f ∈ concat fss -> good_son (um_dim m - 1) nb f) ->
  exists zs, partitionBySpreadZone m = Ok zs /\ zones (adjacent fss) (zlen cells) zs.
Proof.
  intros H1 H2 H3 H4 H5. destruct (cells_neighbours_ok m cells fss nb H1 H2 H3 H4 H5) as (nss & out & outI & E & Hsky & Hl & Hn). unfold partitionBySpreadZone. rewrite E. cbn [bind].
  assert (Hlf : zlen fss = zlen cells) by (unfold zlen; by rewrite (Forall2_length _ _ _ H3)).
  assert (HL : forall i j, link out outI i j <-> adjacent fss i j).
  { intros i j. rewrite (sky_link nss) by done. split.
    - intros (ns & Hns & Hj). pose proof (zlook_Some_lt _ _ _ Hns). destruct (zlook_lt fss i ltac:(lia)) as [fs Hfs]. destruct (Hn i fs ns Hfs Hns) as (ls & -> & HF).
      apply elem_concat' in Hj as (l & Hl' & Hj). apply elem_of_zlook in Hl' as [k Hk]. destruct (F2_at_r _ _ _ _ _ HF Hk) as (f & Hf & _ & Ha). apply Ha in Hj as (Hne & fs' & f' & Hfs' & Hf' & Hs).
      split; [done|]. exists fs, fs', f, f'. split; [done|]. split; [done|]. split; [by eapply zlook_elem|]. done.
    - intros (Hne & fs & fs' & f & f' & Hfs & Hfs' & Hf & Hf' & Hs). pose proof (zlook_Some_lt _ _ _ Hfs). destruct (zlook_lt nss i ltac:(lia)) as [ns Hns]. exists ns. split; [done|].
      destruct (Hn i fs ns Hfs Hns) as (ls & -> & HF). apply elem_of_zlook in Hf as [k Hk]. destruct (F2_at _ _ _ _ _ HF Hk) as (l & Hl' & _ & Ha). apply elem_concat'. exists l. split; [by eapply zlook_elem|].
      apply Ha. split; [done|]. exists fs', f'. done. }
  destruct (partition_ok (zlen cells) out outI) as (zs & E' & HZ).
  - apply (sky_graph nss); [done|done|]. intros ns j Hns Hj. apply elem_of_zlook in Hns as [i Hi]. assert (Ha : adjacent fss i j) by (apply HL, (sky_link nss); [done|]; by exists ns). apply adjacent_range in Ha. lia.
  - apply zlen_nonneg.
  - exists zs. split; [done|]. by apply (zones_iff (link out outI)).
Qed.

(** * Neighbours through the cells *)
Definition cset (c : cell) : list Z := List.filter (fun v => negb (v =? -1)) (set_of c.2).
Lemma cset_elem c j : j ∈ cset c <-> j <> -1 /\ j ∈ c.2.
Proof. unfold cset. rewrite elem_of_list_In, filter_In, <- elem_of_list_In, elem_of_set_of. split; intros [? ?]; split; try done; lia. Qed.
Lemma SS_filter (f : Z -> bool) l : SS l -> SS (List.filter f l).
Proof. intros H. apply asc_SS, asc_filter, SS_asc, H. Qed.
Lemma filter_one i l : NoDup l -> i ∈ l -> zlen (List.filter (fun v => negb (v =? i)) l) = zlen l - 1.
Proof.
  induction l as [|x l IH]; intros Hnd Hi; [by apply elem_of_nil in Hi|]. inversion Hnd; subst. cbn [List.filter]. destruct (Z.eqb_spec x i) as [->|Hne]; cbn [negb].
  - rewrite zlen_cons. assert (E : List.filter (fun v => negb (v =? i)) l = l); [|rewrite E; lia].
    rename select (i ∉ l) into Hx. clear -Hx. induction l as [|y l IH]; [done|]. cbn [List.filter]. rewrite elem_of_cons in Hx. destruct (Z.eqb_spec y i); [exfalso; apply Hx; left; done|]. cbn [negb]. f_equal. apply IH. tauto.
  - rewrite !zlen_cons. rewrite IH; [lia|done|]. apply elem_of_cons in Hi as [->|]; done.
Qed.

Lemma enlarged_ok m cells nb : stores m cells -> has_nodes m nb -> (forall c v, c ∈ cells -> v ∈ c.2 -> 0 <= v < nb \/ v = -1) ->
  exists nss out outI, computeEnlargedNeighborsOfNodes m = Ok (out, outI) /\ skyline nss out outI /\ zlen nss = nb /\
    forall i ns, nss @ i = Some ns -> ascending ns /\ forall j, j ∈ ns <-> j <> i /\ shared cells i j.
Proof.
  intros Hs (d & Hd & Ha & Hw & Hnt) Hv. destruct (stores_get m cells Hs) as (conn & connI & Ec & EI & Hsky & _). pose proof (numCells_ok m cells Hs) as Hn.
  destruct (da_wf_len d Hw) as (_ & Hnb0 & _). rewrite Hnt in Hnb0.
  unfold computeEnlargedNeighborsOfNodes, checkFullyDefined. rewrite Ec, EI, Hd, Hnt, Hn. cbn [bind].
  set (I := fun (P : Z -> Z -> Prop) (st : list (list Z)) => zlen st = nb /\ forall i s, st @ i = Some s -> SS s /\ forall j, j ∈ s <-> P i j).
  match goal with |- context [forZ ?a ?b ?f (replicate ?c ?e)] => assert (W : wp (forZ a b f (replicate c e)) (I (shared cells)) False) end.
  { apply (wp_forZ (fun k st => I (shared (take (Z.to_nat k) cells)) st)); [pose proof (zlen_nonneg cells); lia| | |].
    - split; [rewrite zlen_replicate; lia|]. intros i s Hi. apply zlook_elem, elem_of_replicate_inv in Hi as ->. split; [constructor|]. intros j. rewrite elem_of_nil. split; [done|]. intros (_ & c & Hc & _). by apply elem_of_nil in Hc.
    - intros k st Hk (Lst & Hst). destruct (zlook_lt cells k Hk) as [c Hc]. destruct (cell_range cells conn connI k c Hsky Hc) as (a & E1 & E2 & _ & E3 & _). rewrite E1. cbn [bind]. rewrite E2. cbn [bind]. rewrite E3. cbn [bind].
      fold (cset c).
      assert (Htk : take (Z.to_nat (k + 1)) cells = take (Z.to_nat k) cells ++ [c]). { replace (Z.to_nat (k + 1)) with (S (Z.to_nat k)) by lia. apply take_S_r. by rewrite zlook_to_nat in Hc by lia. }
      apply (wp_foldM _ (fun pre st' => I (fun i j => shared (take (Z.to_nat k) cells) i j \/ i ∈ pre /\ j ∈ cset c) st')).
      + split; [done|]. intros i s Hi. destruct (Hst i s Hi) as [Hss Hm]. split; [done|]. intros j. rewrite Hm, elem_of_nil. tauto.
      + intros pre x post st' El (Lst' & Hst'). assert (Hx : x ∈ cset c) by (rewrite El; apply elem_of_app; right; apply elem_of_cons; by left). apply cset_elem in Hx as [Hx1 Hx2].
        assert (Hxr : 0 <= x < nb) by (destruct (Hv c x (zlook_elem _ _ _ Hc) Hx2); [done|congruence]).
        destruct (zlook_lt st' x ltac:(lia)) as [s Hsx]. rewrite (rd_ok _ _ _ Hsx). cbn [bind]. rewrite (wr_ok st') by lia. cbn [wp]. split; [by rewrite zlen_zset|].
        intros i s' Hi. rewrite zlook_zset in Hi by lia. destruct (Z.eqb_spec i x) as [->|Hne].
        * injection Hi as <-. destruct (Hst' x s Hsx) as [Hss Hm]. split; [by apply SS_sins_all|]. intros j. rewrite elem_of_sins_all, Hm, elem_of_app, elem_of_list_singleton. tauto.
        * destruct (Hst' i s' Hi) as [Hss Hm]. split; [done|]. intros j. rewrite Hm, elem_of_app, elem_of_list_singleton. split; intros [?|[? ?]]; [by left|by right; split; [left|]|by left|]. right. split; [|done]. tauto.
      + intros st' (Lst' & Hst'). split; [done|]. intros i s Hi. destruct (Hst' i s Hi) as [Hss Hm]. split; [done|]. apply zlook_Some_lt in Hi. intros j. rewrite Hm, Htk. rewrite !cset_elem. unfold shared. split.
        * intros [(Hj & c' & Hc' & ?)|[[? ?] [? ?]]]; (split; [done|]); [exists c'|exists c]; (split; [|done]); apply elem_of_app; [by left|right; by apply elem_of_list_singleton].
        * intros (Hj & c' & Hc' & Hi1 & Hj1). apply elem_of_app in Hc' as [Hc'|Hc']; [left; split; [done|]; exists c'; done|]. apply elem_of_list_singleton in Hc' as ->. right. split; [|done]. split; [lia|done].
    - intros st. rewrite take_ge by (unfold zlen; lia). done. }
  apply wp_ok in W as (st & -> & Lst & Hst). cbn [bind].
  set (sz := fun s : list Z => if zlen s =? 0 then 0 else zlen s - 1).
  match goal with |- context [foldM ?f st [0]] => assert (E : foldM f st [0] = Ok (psums (sz <$> st))) end.
  { assert (G : forall l, wp (foldM (fun (idx : list Z) (st : list Z) => let* prev := rd idx (zlen idx - 1) in Ok (idx ++ [if zlen st =? 0 then prev else prev + zlen st - 1])) l [0]) (fun r => r = psums (sz <$> l)) False).
    { intros l. apply (wp_foldM _ (fun pre r => r = psums (sz <$> pre))); [done| |done]. intros pre x post r _ ->. rewrite psums_len. replace (zlen (sz <$> pre) + 1 - 1) with (zlen (sz <$> pre)) by lia.
      rewrite (rd_ok _ _ _ (psums_end _)). cbn [bind wp]. rewrite fmap_app. change (sz <$> [x]) with [sz x]. rewrite psums_snoc_eq. f_equal. f_equal. assert (sz x = if zlen x =? 0 then 0 else zlen x - 1) as -> by done. destruct (zlen x =? 0); lia. }
    destruct (wp_ok _ _ (G st)) as (r & E & ->). exact E. }
  rewrite E. cbn [bind]. rewrite psums_len. replace (zlen (sz <$> st) + 1 - 1) with (zlen (sz <$> st)) by lia. rewrite (rd_ok _ _ _ (psums_end _)). cbn [bind].
  set (nsf := fun (i : Z) (s : list Z) => List.filter (fun v => negb (v =? i)) s).
  set (nss := imap (fun i s => nsf (Z.of_nat i) s) st).
  assert (Lnss : zlen nss = nb) by (unfold nss, zlen; rewrite imap_length; exact Lst).
  assert (Hnss : forall i, nss @ i = nsf i <$> st @ i). { intros i. unfold zlook. destruct (Z.ltb_spec i 0); [done|]. unfold nss. rewrite list_lookup_imap, Z2Nat.id by lia. done. }
  assert (Hsz : zlen <$> nss = sz <$> st).
  { apply zlook_ext. intros i. rewrite !zlook_fmap, Hnss. destruct (st @ i) as [s|] eqn:Es; [|done]. cbn. f_equal. destruct (Hst i s Es) as [Hss Hm]. unfold sz, nsf. destruct (Z.eqb_spec (zlen s) 0) as [E0|E0].
    - destruct s; [done|]. rewrite zlen_cons in E0. pose proof (zlen_nonneg s). lia.
    - apply filter_one; [by apply SS_NoDup|]. destruct s as [|x s]; [done|]. apply zlook_Some_lt in Es. assert (Hx : x ∈ x :: s) by (apply elem_of_cons; by left). apply Hm in Hx as (_ & c & Hc & Hi & _). apply Hm. split; [lia|]. exists c. done. }
  rewrite <- Hsz. rewrite <- zsum_pre. unfold ifthrow. pose proof (zlen_nonneg (concat nss)). replace (zlen (concat nss) <? 0) with false by lia.
  match goal with |- context [forZ 0 (zlen st) ?f ?s0] => assert (W : wp (forZ 0 (zlen st) f s0) (fun r => r = ost (zlen (concat nss)) nss) False) end.
  { apply (wp_forZ (fun k r => r = ost (zlen (concat nss)) (take (Z.to_nat k) nss))); [apply zlen_nonneg|apply ost_start| |].
    - intros k r Hk ->. destruct (zlook_lt st k Hk) as [s Es]. rewrite (rd_ok _ _ _ Es). cbn [bind].
      assert (Hk2 : 0 <= k <= zlen (zlen <$> nss)) by (rewrite zlen_fmap; lia). rewrite (rd_ok _ _ _ (proj2 (psums_ok (zlen <$> nss)) k Hk2)). cbn [bind]. fold (nsf k s).
      assert (Hns : nss @ k = Some (nsf k s)) by (rewrite Hnss, Es; done).
      assert (Htk : take (Z.to_nat (k + 1)) nss = take (Z.to_nat k) nss ++ [nsf k s]). { replace (Z.to_nat (k + 1)) with (S (Z.to_nat k)) by lia. apply take_S_r. by rewrite zlook_to_nat in Hns by lia. }
      rewrite Htk. rewrite ost_copy.
      + cbn [wp]. rewrite sub_full. done.
      + lia.
      + apply zlen_nonneg.
      + lia.
      + rewrite <- (take_drop (Z.to_nat (k + 1)) nss) at 2. rewrite Htk, !concat_app, !zlen_app. cbn [concat]. rewrite app_nil_r. pose proof (zlen_nonneg (concat (drop (Z.to_nat (k + 1)) nss))). lia.
      + rewrite zsum_pre, fmap_take. done.
    - intros r ->. rewrite take_ge by (unfold zlen in *; lia). done. }
  apply wp_ok in W as (r & -> & ->). cbn [bind]. rewrite ost_end by done. rewrite initialised_ok. cbn [bind].
  exists nss, (concat nss), (psums (zlen <$> nss)). split; [done|]. split; [apply skyline_psums|]. split; [done|].
  intros i ns Hi. rewrite Hnss in Hi. destruct (st @ i) as [s|] eqn:Es; [|done]. injection Hi as <-. destruct (Hst i s Es) as [Hss Hm]. split; [apply asc_filter, SS_asc, Hss|].
  intros j. unfold nsf. rewrite elem_of_list_In, filter_In, <- elem_of_list_In, Hm. split; intros [? ?]; split; try done; lia.
Qed.
