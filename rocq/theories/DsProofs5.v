From Coq Require Import QArith ZifyBool ZifyNat.
From Verif Require Import CellModel CellSpec CellProofs4 Base DataArray ArrLib FillLib StdModel StdProofs SearchSpec SearchModel SearchProofs IndexSpec IndexModel IndexProofs IndexProofs2 IndexProofs3 IndexProofs4 SkyModel SkyProofs RenumModel RenumSpec RenumProofs RenumProofs2 PartSpec PartModel PartProofs4 CellTable UmModel UmSpec UmProofs UmProofs2 UmProofs3 UmProofs4 UmProofs8 UmProofs9 UmProofs10 UcModel UcSpec UcProofs UcProofs2 UcProofs3 UcProofs4 UcProofs5 DsModel DsSpec DsProofs DsProofs2 DsProofs3 DsProofs4.
Local Open Scope Z_scope.

Lemma SS_asc l : SS l -> ascending l.
Proof. induction 1 as [|x l Hs IH Hf]; [done|]. cbn [ascending]. rewrite Forall_forall in Hf. done. Qed.
Lemma asc_SS l : ascending l -> SS l.
Proof. induction l as [|x l IH]; [constructor|]. intros [H1 H2]. constructor; [auto|]. by apply Forall_forall. Qed.
Lemma inc_asc l : increasing l -> ascending l.
Proof. intros H. by apply SS_asc, increasing_SS. Qed.
Lemma asc_filter (f : Z -> bool) l : ascending l -> ascending (List.filter f l).
Proof. induction l as [|x l IH]; intros H; [done|]. destruct H as [H1 H2]. cbn [List.filter]. destruct (f x); [|auto]. split; [|auto]. intros y Hy. apply H1. apply elem_of_list_In, filter_In in Hy as [Hy _]. by apply elem_of_list_In. Qed.

(** * Owners *)
Lemma owners_elem k dss t j : j ∈ owners k dss t <-> exists ds, dss @ (j - k) = Some ds /\ t ∈ ds.
Proof.
  revert k. induction dss as [|ds dss IH]; intros k; cbn [owners].
  - split; [intros H; by apply elem_of_nil in H|]. intros (ds & H & _). by rewrite zlook_nil in H.
  - rewrite elem_of_app, IH, elem_of_replicate. rewrite zlook_cons. destruct (Z.eqb_spec (j - k) 0) as [E|N].
    + split; [intros [[-> Hc]|(d & Hd & _)]|].
      * exists ds. split; [done|]. apply cnt_in. lia.
      * apply zlook_Some_lt in Hd. lia.
      * intros (d & Hd & Ht). injection Hd as <-. left. split; [lia|]. apply cnt_in in Ht. lia.
    + replace (j - (k + 1)) with (j - k - 1) by lia. split; [intros [[-> _]|H]; [lia|done]|by right].
Qed.
Lemma owners_len k dss t : zlen (owners k dss t) = Z.of_nat (count_occ Z.eq_dec (concat dss) t).
Proof. revert k. induction dss as [|ds dss IH]; intros k; cbn [owners concat]; [done|]. rewrite zlen_app, IH, zlen_replicate, count_occ_app. lia. Qed.
Lemma count_one (l : list Z) t i : first_pos l t i -> count_occ Z.eq_dec l t = 1%nat <-> forall j, l @ j = Some t -> j = i.
Proof.
  intros [Hi Hb]. apply zlook_Some_lt in Hi as Li. assert (E : l = take (Z.to_nat i) l ++ t :: drop (S (Z.to_nat i)) l). { rewrite zlook_to_nat in Hi by lia. symmetry. by apply take_drop_middle. }
  set (A := take (Z.to_nat i) l) in *. set (B := drop (S (Z.to_nat i)) l) in *. assert (HA : zlen A = i) by (unfold A; rewrite zlen_take; lia).
  assert (cA : count_occ Z.eq_dec A t = 0%nat). { apply count_occ_not_In. rewrite <- elem_of_list_In. intros Ht. apply elem_of_zlook in Ht as [j Hj]. pose proof (zlook_Some_lt _ _ _ Hj). apply (Hb j); [lia|]. rewrite E, zlook_app_l by lia. done. }
  rewrite E, count_occ_app, cA. cbn [count_occ]. destruct (Z.eq_dec t t); [|done]. split.
  - intros Hc j Hj. rewrite zlook_app in Hj. destruct (Z.ltb_spec j (zlen A)); [exfalso; apply (Hb j); [lia|]; rewrite E, zlook_app_l by lia; done|]. rewrite zlook_cons in Hj. destruct (Z.eqb_spec (j - zlen A) 0); [lia|]. exfalso. apply zlook_elem, cnt_in in Hj. lia.
  - intros H. assert (count_occ Z.eq_dec B t = 0%nat) as ->; [|lia]. apply count_occ_not_In. rewrite <- elem_of_list_In. intros Ht. apply elem_of_zlook in Ht as [j Hj]. pose proof (zlook_Some_lt _ _ _ Hj). assert (i + 1 + j = i); [|lia]. apply H. rewrite zlook_app_r by lia. rewrite zlook_cons. replace (i + 1 + j - zlen A =? 0) with false by lia. rewrite <- Hj. f_equal. lia.
Qed.

(** * Neighbours *)
Definition neigh (revs : list (list Z)) (i : Z) (ds : list Z) : list Z := concat ((fun t => List.filter (fun v => negb (v =? i)) (set_of (default [] (revs @ t)))) <$> ds).
Fixpoint neighs (revs : list (list Z)) (k : Z) (dss : list (list Z)) : list (list Z) := match dss with [] => [] | ds :: r => neigh revs k ds :: neighs revs (k + 1) r end.
Lemma neighs_app revs k a b : neighs revs k (a ++ b) = neighs revs k a ++ neighs revs (k + zlen a) b.
Proof. revert k. induction a as [|x a IH]; intros k; cbn [neighs app]; [by rewrite zlen_nil, Z.add_0_r|]. rewrite IH, zlen_cons. do 3 f_equal. lia. Qed.
Lemma neighs_len revs k dss : zlen (neighs revs k dss) = zlen dss.
Proof. revert k. induction dss as [|d dss IH]; intros k; [done|]. cbn [neighs]. by rewrite !zlen_cons, IH. Qed.
Lemma neighs_at revs k dss i ds : dss @ i = Some ds -> neighs revs k dss @ i = Some (neigh revs (k + i) ds).
Proof.
  revert k i. induction dss as [|d dss IH]; intros k i Hi; [by rewrite zlook_nil in Hi|]. cbn [neighs]. rewrite zlook_cons in *. destruct (i =? 0) eqn:E; [injection Hi as ->; do 2 f_equal; lia|]. rewrite (IH _ _ Hi). do 2 f_equal. lia.
Qed.
Lemma adv_ok dss revs desc descI revDesc revDescI : skyline dss desc descI -> skyline revs revDesc revDescI -> (forall t, t ∈ concat dss -> 0 <= t < zlen revs) ->
  ComputeNeighborsOfCellsAdv desc descI revDesc revDescI = Ok (concat (neighs revs 0 dss), psums (zlen <$> neighs revs 0 dss)).
Proof.
  intros Hs Hr Ht. unfold ComputeNeighborsOfCellsAdv. pose proof Hs as [Ed Hp]. destruct Hp as [HpI _]. rewrite zlen_fmap in HpI. rewrite HpI. replace (zlen dss + 1 - 1) with (zlen dss) by lia.
  set (st := fun pre => (concat (neighs revs 0 pre), psums (zlen <$> neighs revs 0 pre))). change (@nil Z, [0]) with (st []). rewrite (forZ_blocks _ st (zlen dss) dss eq_refl); [done|].
  intros pre ds post E. unfold st at 1. cbn iota. assert (Hd : dss @ zlen pre = Some ds) by (rewrite E, zlook_app_r, Z.sub_diag by lia; done).
  destruct (sky_pack dss desc descI _ ds Hs Hd) as (a & b & Ha & Hb & Ha0 & Hab & Hbl & Hsub). rewrite (rd_ok _ _ _ Ha). cbn [bind]. rewrite (rd_ok _ _ _ Hb). cbn [bind]. replace (b <? a) with false by lia. cbn [ubif].
  set (acc := concat (neighs revs 0 pre)).
  assert (W : wp (forZ a b (fun w1 out0 => let* f := rd desc w1 in let* lo := rd revDescI f in let* hi := rd revDescI (f + 1) in let* x := range revDesc lo hi in Ok (out0 ++ List.filter (fun v => negb (v =? zlen pre)) (set_of x))) acc) (fun s => s = acc ++ neigh revs (zlen pre) ds) False).
  { assert (Hdl : zlen ds = b - a) by (rewrite Hsub; unfold sub; rewrite zlen_take, zlen_drop; lia).
    apply (wp_forZ (fun w s => s = acc ++ neigh revs (zlen pre) (take (Z.to_nat (w - a)) ds))); [lia|rewrite Z.sub_diag; cbn; by rewrite app_nil_r| |].
    - intros w s Hw ->. destruct (zlook_lt ds (w - a)) as [t Htt]; [lia|].
      assert (Hc : desc @ w = Some t). { pose proof Htt as Hx. rewrite Hsub in Hx. unfold sub in Hx. rewrite zlook_take in Hx by lia. rewrite zlook_drop in Hx by lia. rewrite <- Hx. f_equal. lia. }
      rewrite (rd_ok _ _ _ Hc). cbn [bind]. destruct (zlook_lt revs t) as [rv Hrv]; [apply Ht; rewrite <- Ed; by eapply zlook_elem|]. destruct (sky_pack revs revDesc revDescI t rv Hr Hrv) as (a' & b' & Ha' & Hb' & Ha0' & Hab' & Hbl' & Hsub').
      rewrite (rd_ok _ _ _ Ha'). cbn [bind]. rewrite (rd_ok _ _ _ Hb'). cbn [bind]. assert (range revDesc a' b' = Ok rv) as ->. { unfold range. replace (_ && _) with true by lia. f_equal. rewrite Hsub'. unfold sub. f_equal. }
      cbn [bind wp]. rewrite <- app_assoc. f_equal. replace (Z.to_nat (w + 1 - a)) with (S (Z.to_nat (w - a))) by lia. rewrite zlook_to_nat in Htt by lia. rewrite (take_S_r _ _ _ Htt). unfold neigh. rewrite fmap_app, concat_app. cbn [fmap list_fmap concat]. rewrite app_nil_r, Hrv. done.
    - intros s ->. rewrite take_ge by (unfold zlen in Hdl; lia). done. }
  apply wp_ok in W as (s & -> & ->). cbn [bind]. unfold st. rewrite neighs_app. cbn [neighs]. rewrite Z.add_0_l, concat_snoc. fold acc. f_equal. f_equal. rewrite fmap_app. change (zlen <$> [neigh revs (zlen pre) ds]) with [zlen (neigh revs (zlen pre) ds)]. rewrite psums_snoc_eq. rewrite zlen_app. unfold acc. rewrite <- zlen_concat. done.
Qed.
(** The general statement. *)
Lemma adv_spec dss revs desc descI revDesc revDescI : skyline dss desc descI -> skyline revs revDesc revDescI -> (forall t, t ∈ concat dss -> 0 <= t < zlen revs) ->
  exists nss out outI, ComputeNeighborsOfCellsAdv desc descI revDesc revDescI = Ok (out, outI) /\ skyline nss out outI /\ zlen nss = zlen dss /\
    forall i ds ns, dss @ i = Some ds -> nss @ i = Some ns -> exists ls, ns = concat ls /\
      Forall2 (fun t l => ascending l /\ forall j, j ∈ l <-> j <> i /\ exists rv, revs @ t = Some rv /\ j ∈ rv) ds ls.
Proof.
  intros Hs Hr Ht. exists (neighs revs 0 dss). eexists _, _. split; [by apply adv_ok|]. split; [apply skyline_psums|]. split; [apply neighs_len|].
  intros i ds ns Hd Hn. rewrite (neighs_at _ _ _ _ _ Hd), Z.add_0_l in Hn. injection Hn as <-. eexists. split; [reflexivity|]. rewrite Forall2_fmap_r. apply Forall_Forall2_diag. apply Forall_forall. intros t Htd.
  destruct (zlook_lt revs t) as [rv Hrv]; [apply Ht; apply zlook_elem in Hd; apply elem_concat'; eauto|]. assert (Edef : default [] (revs @ t) = rv) by (by rewrite Hrv). split; [apply asc_filter, SS_asc, SS_set_of|]. intros j. rewrite elem_of_list_In, filter_In, <- elem_of_list_In, elem_of_set_of, Edef. split.
  - intros [Hj Hne]. split; [lia|]. by exists rv.
  - intros (Hne & rv' & Hrv' & Hj). assert (rv' = rv) as -> by congruence. split; [done|lia].
Qed.

(** Sons of the same rank are those with the same nodes. *)
Section Desc.
Context (fss : list (list cell)) (new : list cell) (dss : list (list Z)).
Hypothesis HD : descends fss new dss.
Lemma D_len : zlen dss = zlen fss.
Proof. destruct HD as (H & _). unfold zlen. f_equal. symmetry. by eapply Forall2_length. Qed.
Lemma D_concat : Forall2 (fun f d => exists f', new @ d = Some f' /\ same_nodes f'.2 f.2) (concat fss) (concat dss).
Proof. destruct HD as (H & _). clear HD. induction H as [|fs ds fss' dss' H1 H2 IH]; [constructor|]. cbn [concat]. by apply Forall2_app. Qed.
Lemma D_rank t : t ∈ concat dss -> 0 <= t < zlen new.
Proof. intros Ht. apply elem_of_zlook in Ht as [i Hi]. destruct (F2_at_r _ _ _ _ _ D_concat Hi) as (f & _ & f' & Hf' & _). by eapply zlook_Some_lt. Qed.
Lemma D_same i j f f' d d' : concat fss @ i = Some f -> concat fss @ j = Some f' -> concat dss @ i = Some d -> concat dss @ j = Some d' -> d = d' <-> same_nodes f.2 f'.2.
Proof.
  intros Hf Hf' Hd Hd'. destruct (F2_at _ _ _ _ _ D_concat Hf) as (e & He & n & Hn & Hs). assert (e = d) as -> by congruence. destruct (F2_at _ _ _ _ _ D_concat Hf') as (e & He' & n' & Hn' & Hs'). assert (e = d') as -> by congruence. split.
  - intros ->. assert (n = n') as -> by congruence. eapply sn_trans; [by apply sn_sym|done].
  - intros H. destruct HD as (_ & H2 & _). apply (H2 d d' n n' Hn Hn'). eapply sn_trans; [exact Hs|]. eapply sn_trans; [exact H|]. by apply sn_sym.
Qed.
Lemma D_cell j fs f ds t : fss @ j = Some fs -> dss @ j = Some ds -> (exists i, fs @ i = Some f /\ ds @ i = Some t) -> exists f', new @ t = Some f' /\ same_nodes f'.2 f.2.
Proof. intros Hf Hd (i & Hi & Hi'). destruct HD as (H & _). destruct (F2_at _ _ _ _ _ H Hf) as (ds' & Hd' & HF). assert (ds' = ds) as -> by congruence. destruct (F2_at _ _ _ _ _ HF Hi) as (t' & Ht' & HP). assert (t' = t) as -> by congruence. done. Qed.
(** The owners, by the sons. *)
Lemma D_owner t f j : new @ t = Some f -> j ∈ owners 0 dss t <-> exists fs f', fss @ j = Some fs /\ f' ∈ fs /\ same_nodes f.2 f'.2.
Proof.
  intros Ht. rewrite owners_elem, Z.sub_0_r. destruct HD as (H & H2 & _). split.
  - intros (ds & Hds & Htd). destruct (F2_at_r _ _ _ _ _ H Hds) as (fs & Hfs & HF). apply elem_of_zlook in Htd as [i Hi]. destruct (F2_at_r _ _ _ _ _ HF Hi) as (f' & Hf' & f2 & Hf2 & Hsn). assert (f2 = f) as -> by congruence. exists fs, f'. split; [done|]. split; [by eapply zlook_elem|done].
  - intros (fs & f' & Hfs & Hf' & Hsn). destruct (F2_at _ _ _ _ _ H Hfs) as (ds & Hds & HF). apply elem_of_zlook in Hf' as [i Hi]. destruct (F2_at _ _ _ _ _ HF Hi) as (t' & Ht' & f2 & Hf2 & Hsn2). exists ds. split; [done|]. assert (t' = t) as ->; [|by eapply zlook_elem]. apply (H2 t' t f2 f Hf2 Ht). eapply sn_trans; [exact Hsn2|]. by apply sn_sym.
Qed.
End Desc.

Lemma cells_neighbours_ok m cells fss nb : stores m cells -> has_nodes m nb -> Forall2 (sons MinusOneSonsGenerator) cells fss -> 1 <= um_dim m <= 3 ->
  (forall f, f ∈ concat fss -> good_son (um_dim m - 1) nb f) ->
  exists nss out outI, computeNeighborsOfCells m = Ok (out, outI) /\ skyline nss out outI /\ zlen nss = zlen cells /\
    forall i fs ns, fss @ i = Some fs -> nss @ i = Some ns -> exists ls, ns = concat ls /\ Forall2 (across fss i) fs ls.
Proof.
  intros Hst Hn Hs Hd Hg. destruct (fast_ok MinusOneSonsGenerator m cells fss nb Hst Hn Hs ltac:(lia) ltac:(cbn; lia) Hg) as (m' & new & dss & desc & descI & revDesc & revDescI & E & _ & _ & _ & _ & HD & H1 & H2).
  unfold computeNeighborsOfCells, buildDescendingConnectivity. rewrite E. cbn [bind]. pose proof (zlen_nonneg new).
  destruct (adv_spec dss _ desc descI revDesc revDescI H1 H2) as (nss & out & outI & Ea & Hsk & Hl & Hns).
  { intros t Ht. rewrite zlen_fmap, zlen_seqZ. rewrite Z.max_r by lia. by eapply D_rank. }
  exists nss, out, outI. split; [done|]. split; [done|]. split; [rewrite Hl, (D_len fss new dss HD); unfold zlen; f_equal; symmetry; by eapply Forall2_length|].
  intros i fs ns Hfs Hnsi. pose proof HD as (HF & _). destruct (F2_at _ _ _ _ _ HF Hfs) as (ds & Hds & HF2). destruct (Hns i ds ns Hds Hnsi) as (ls & -> & HF3). exists ls. split; [done|].
  apply F2_zlook; [pose proof (Forall2_length _ _ _ HF2) as L1; pose proof (Forall2_length _ _ _ HF3) as L2; unfold zlen; f_equal; exact (eq_trans L1 L2)|]. intros a f l Hf Hl'. destruct (F2_at _ _ _ _ _ HF2 Hf) as (t & Ht & f' & Hf' & Hsn). destruct (F2_at _ _ _ _ _ HF3 Ht) as (l' & Hl'' & Hasc & Hj). assert (l' = l) as -> by congruence. split; [done|].
  intros j. rewrite Hj. apply and_iff_compat_l. pose proof (zlook_Some_lt _ _ _ Hf') as Lt. rewrite zlook_fmap, zlook_seqZ by lia. cbn. rewrite Z.add_0_l. split.
  - intros (rv & [= <-] & Hjr). apply (D_owner fss new dss HD t f' j Hf') in Hjr as (fs' & f2 & A1 & A2 & A3). exists fs', f2. split; [done|]. split; [done|]. eapply sn_trans; [apply sn_sym; exact Hsn|done].
  - intros (fs' & f2 & A1 & A2 & A3). eexists. split; [reflexivity|]. apply (D_owner fss new dss HD t f' j Hf'). exists fs', f2. split; [done|]. split; [done|]. eapply sn_trans; [exact Hsn|done].
Qed.

(** * Skin *)
Lemma some_fun {A} (x y : A) o : o = Some x -> o = Some y -> x = y.
Proof. congruence. Qed.
Lemma part0_ok m cells ids sel : stores m cells -> 0 <= um_dim m -> picked cells ids sel ->
  exists m', buildPartOfMySelf m ids = Ok m' /\ stores m' sel /\ typed m' sel /\ um_dim m' = um_dim m /\ um_coords m' = um_coords m.
Proof. intros Hs Hd Hp. destruct (part_ok m cells ids sel Hs Hp) as (m' & E & H). exists m'. split; [|done]. unfold buildPartOfMySelf, getMeshDimension. replace (um_dim m <? -1) with false by lia. cbn [ifthrow bind]. replace (um_dim m =? -1) with false by lia. done. Qed.
(** The ranks of the sons that have one owner. *)
Lemma single_ok (revs : list (list Z)) revDesc revDescI : skyline revs revDesc revDescI ->
  exists sh ids, deltaShiftIndex (vec revDescI) = Ok (Some <$> sh) /\ findIdsEqual 1 (vec sh) = Ok ids /\ ascending ids /\ forall t, t ∈ ids <-> exists rv, revs @ t = Some rv /\ zlen rv = 1.
Proof.
  intros Hs. pose proof Hs as [_ Hp]. pose proof Hp as [HpI _]. rewrite zlen_fmap in HpI. pose proof (zlen_nonneg revs).
  assert (Hnt : forall l : list Z, da_nt (vec l) = zlen l) by (intros l; unfold da_nt, vec; cbn; by rewrite Z.quot_1_r).
  destruct (delta_ok (vec revDescI) eq_refl eq_refl) as (sh & E & Hl & Hsh); [rewrite Hnt; lia|]. rewrite Hnt in Hl. cbn [da_vals vec] in Hsh.
  destruct (findIdsEqual_ok (vec sh) eq_refl eq_refl 1) as (ids & Ef & Hinc & Hids). exists sh, ids. split; [done|]. split; [done|]. split; [by apply inc_asc|]. cbn [da_vals vec] in Hids.
  assert (G : forall t rv, revs @ t = Some rv -> sh @ t = Some (zlen rv)). { intros t rv Hrv. destruct (psums_delta _ _ t (zlen rv) Hp) as (a & Ha & Hb); [by rewrite zlook_fmap, Hrv|]. rewrite (Hsh t a _ Ha Hb). f_equal. lia. }
  intros t. rewrite Hids. split.
  - intros (v & Hv & ->). destruct (zlook_lt revs t) as [rv Hrv]; [apply zlook_Some_lt in Hv; lia|]. exists rv. split; [done|]. rewrite (G t rv Hrv) in Hv. congruence.
  - intros (rv & Hrv & H1). exists 1. split; [|done]. rewrite (G t rv Hrv). congruence.
Qed.
Section Skin.
Context (fss : list (list cell)) (new : list cell) (dss : list (list Z)).
Hypothesis HD : descends fss new dss.
Lemma alone_rank t i : first_pos (concat dss) t i -> zlen (owners 0 dss t) = 1 <-> alone (concat fss) i.
Proof.
  intros Hi. rewrite owners_len. destruct (F2_at_r _ _ _ _ _ (D_concat fss new dss HD) (proj1 Hi)) as (f & Hf & _). transitivity (count_occ Z.eq_dec (concat dss) t = 1%nat); [lia|]. rewrite (count_one _ t i Hi). split.
  - intros H. exists f. split; [done|]. intros j f' Hf' Hsn. destruct (F2_at _ _ _ _ _ (D_concat fss new dss HD) Hf') as (d & Hd & _). apply H. assert (t = d) as ->; [|done]. by apply (D_same fss new dss HD i j f f' t d Hf Hf' (proj1 Hi) Hd).
  - intros (f2 & Hf2 & H) j Hj. assert (f2 = f) as -> by (multimatch goal with H : ?o = Some _, H2 : ?o = Some _ |- _ => exact (some_fun _ _ _ H H2) end). destruct (F2_at_r _ _ _ _ _ (D_concat fss new dss HD) Hj) as (f' & Hf' & _). apply (H j f' Hf'). by apply (D_same fss new dss HD i j f f' t t Hf Hf' (proj1 Hi) Hj).
Qed.
Lemma first_fun (l : list Z) t i j : first_pos l t i -> first_pos l t j -> i = j.
Proof. intros [A1 A2] [B1 B2]. destruct (Z.lt_trichotomy i j) as [L|[L|L]]; [by apply B2 in L|done|by apply A2 in L]. Qed.
Lemma skin_ok ids : ascending ids -> (forall t, t ∈ ids <-> exists rv, (owners 0 dss <$> seqZ 0 (zlen new)) @ t = Some rv /\ zlen rv = 1) ->
  exists sk, picked new ids sk /\ skin_of (concat fss) sk /\ zlen sk = zlen ids.
Proof.
  intros Ha Hids. pose proof (zlen_nonneg new). assert (Hids' : forall t, t ∈ ids <-> 0 <= t < zlen new /\ zlen (owners 0 dss t) = 1).
  { intros t. rewrite Hids. rewrite zlook_fmap, zseq. split.
    - intros (rv & Hrv & H1). destruct ((0 <=? t) && (t <? zlen new)) eqn:E; [|done]. injection Hrv as <-. split; [lia|done].
    - intros (Ht & H1). replace (_ && _) with true by lia. eexists. split; [reflexivity|]. rewrite Z.add_0_l. done. }
  destruct (picked_ex new ids) as [sk Hsk]; [intros v Hv; apply Hids' in Hv; tauto|]. exists sk. split; [done|]. split; [|by apply picked_len in Hsk].
  pose proof HD as (_ & _ & H3 & Ho).
  assert (Hex : exists ps, Forall2 (fun t i => first_pos (concat dss) t i) ids ps).
  { assert (Hal : forall t, t ∈ ids -> exists i, first_pos (concat dss) t i). { intros t Ht. apply Hids' in Ht as [Ht _]. destruct (zlook_lt new t Ht) as [f Hf]. destruct (H3 t f Hf) as (i & Hi & _). eauto. }
    clear -Hal. induction ids as [|t ids IH]; [exists []; constructor|]. destruct IH as [ps Hps]; [intros; apply Hal; by right|]. destruct (Hal t) as [i Hi]; [left|]. exists (i :: ps). by constructor. }
  destruct Hex as [ps Hps]. exists ps. split; [|split].
  - clear -Ha Hps Ho. induction Hps as [|t i ids ps Hi Hps IH]; [done|]. destruct Ha as [Ha1 Ha2]. split; [|by apply IH]. intros j Hj. apply elem_of_zlook in Hj as [a Hj]. destruct (F2_at_r _ _ _ _ _ Hps Hj) as (u & Hu & Hfu). assert (t < u) by (apply Ha1; by eapply zlook_elem). destruct (Z.lt_trichotomy i j) as [L|[L|L]]; [done| |].
    + subst j. destruct Hi as [Hi _], Hfu as [Hfu _]. assert (t = u) by congruence. lia.
    + pose proof (Ho j i u t Hfu Hi L). lia.
  - intros i. split.
    + intros Hi. apply elem_of_zlook in Hi as [a Hi]. destruct (F2_at_r _ _ _ _ _ Hps Hi) as (t & Ht & Hf). apply (alone_rank t i Hf). apply zlook_elem, Hids' in Ht. tauto.
    + intros Hal. pose proof Hal as (f & Hf & Huniq). destruct (F2_at _ _ _ _ _ (D_concat fss new dss HD) Hf) as (t & Ht & f' & Hf' & _). destruct (H3 t f' Hf') as (j & Hj & Hfj). assert (j = i) as ->. { apply (Huniq j f' Hfj). apply (D_same fss new dss HD i j f f' t t Hf Hfj Ht (proj1 Hj)). done. }
      assert (Htin : t ∈ ids). { apply Hids'. split; [by eapply zlook_Some_lt|]. by apply (alone_rank t i Hj). }
      apply elem_of_zlook in Htin as [a Hta]. destruct (F2_at _ _ _ _ _ Hps Hta) as (i' & Hi' & Hfi'). assert (i' = i) as -> by (by eapply first_fun). by eapply zlook_elem.
  - apply F2_zlook; [apply Forall2_length in Hps; apply Forall2_length in Hsk; unfold zlen; lia|]. intros a i f Hi Hf. destruct (F2_at_r _ _ _ _ _ Hps Hi) as (t & Ht & Hfp). destruct (F2_at _ _ _ _ _ Hsk Ht) as (f' & Hf' & Hn). assert (f' = f) as -> by (multimatch goal with H : ?o = Some _, H2 : ?o = Some _ |- _ => exact (some_fun _ _ _ H H2) end). destruct (H3 t f Hn) as (j & Hj & Hfj). assert (i = j) as -> by (by eapply first_fun). done.
Qed.
End Skin.

Section Bound.
Context (m : umesh) (cells : list cell) (fss : list (list cell)) (nb : Z).
Hypothesis Hst : stores m cells.
Hypothesis Hn : has_nodes m nb.
Hypothesis Hs : Forall2 (sons MinusOneSonsGenerator) cells fss.
Hypothesis Hd : 1 <= um_dim m <= 3.
Hypothesis Hg : forall f, f ∈ concat fss -> good_son (um_dim m - 1) nb f.

Lemma computeSkin_ok : exists m' sk, computeSkin m = Ok m' /\ stores m' sk /\ typed m' sk /\ um_dim m' = um_dim m - 1 /\ um_coords m' = um_coords m /\ skin_of (concat fss) sk.
Proof.
  destruct (fast_ok MinusOneSonsGenerator m cells fss nb Hst Hn Hs ltac:(lia) ltac:(cbn; lia) Hg) as (m1 & new & dss & desc & descI & revDesc & revDescI & E & S1 & S2 & S3 & S4 & HD & H1 & H2). cbn [g_delta MinusOneSonsGenerator] in S3.
  unfold computeSkin, buildDescendingConnectivity. rewrite E. cbn [bind]. destruct (single_ok _ _ _ H2) as (sh & ids & -> & Ef & Ha & Hids). cbn [bind]. rewrite initialised_ok. cbn [bind]. rewrite Ef. cbn [bind].
  destruct (skin_ok fss new dss HD ids Ha Hids) as (sk & Hp & Hsk & _). destruct (part0_ok m1 new ids sk S1 ltac:(lia) Hp) as (m' & E' & P1 & P2 & P3 & P4). exists m', sk. split; [done|]. split; [done|]. split; [done|]. split; [congruence|]. split; [congruence|]. done.
Qed.
Lemma boundary_ok : (exists i, alone (concat fss) i) -> exists m' sk, buildBoundaryMesh m = Ok m' /\ stores m' sk /\ typed m' sk /\ um_dim m' = um_dim m - 1 /\ um_coords m' = um_coords m /\ skin_of (concat fss) sk.
Proof.
  intros (i0 & Hi0). destruct (fast_ok MinusOneSonsGenerator m cells fss nb Hst Hn Hs ltac:(lia) ltac:(cbn; lia) Hg) as (m1 & new & dss & desc & descI & revDesc & revDescI & E & S1 & S2 & S3 & S4 & HD & H1 & H2). cbn [g_delta MinusOneSonsGenerator] in S3.
  unfold buildBoundaryMesh, buildDescendingConnectivity. rewrite E. cbn [bind]. rewrite (numCells_ok m1 new S1). cbn [bind]. pose proof (zlen_nonneg new).
  set (revs := owners 0 dss <$> seqZ 0 (zlen new)) in *. assert (Hrl : zlen revs = zlen new) by (unfold revs; rewrite zlen_fmap, zlen_seqZ; lia). pose proof H2 as [_ Hp].
  set (ids := List.filter (fun t => zlen (owners 0 dss t) =? 1) (seqZ 0 (zlen new))).
  assert (W : wp (forZ 0 (zlen new) (fun i s => let* a := rd revDescI i in let* b := rd revDescI (i + 1) in Ok (if b - a =? 1 then s ++ [i] else s)) []) (fun s => s = ids) False).
  { apply (wp_forZ (fun i s => s = List.filter (fun t => zlen (owners 0 dss t) =? 1) (seqZ 0 i))); [lia|done| |done].
    intros i s Hi ->. assert (Hr : revs @ i = Some (owners 0 dss i)) by (unfold revs; rewrite zlook_fmap, zlook_seqZ by lia; cbn; by rewrite Z.add_0_l). destruct (psums_delta _ _ i (zlen (owners 0 dss i)) Hp) as (a & Ha & Hb); [by rewrite zlook_fmap, Hr|].
    rewrite (rd_ok _ _ _ Ha). cbn [bind]. rewrite (rd_ok _ _ _ Hb). cbn [bind wp]. rewrite seqZ_app by lia. rewrite List.filter_app. change (seqZ (0 + i) 1) with [0 + i]. rewrite Z.add_0_l. cbn [List.filter]. replace (a + zlen (owners 0 dss i) - a) with (zlen (owners 0 dss i)) by lia. destruct (_ =? 1); [done|by rewrite app_nil_r]. }
  apply wp_ok in W as (s & -> & ->). cbn [bind].
  assert (Ha : ascending ids). { apply asc_filter, inc_asc. intros a b x y Hab Hx Hy. rewrite zseq in Hx, Hy. destruct ((0 <=? a) && _); [|done]. destruct ((0 <=? b) && _); [|done]. injection Hx as <-. injection Hy as <-. lia. }
  assert (Hids : forall t, t ∈ ids <-> exists rv, revs @ t = Some rv /\ zlen rv = 1).
  { intros t. unfold ids. rewrite elem_of_list_In, filter_In, <- elem_of_list_In, elem_of_seqZ. unfold revs. rewrite zlook_fmap, zseq. split.
    - intros [Ht H1']. replace (_ && _) with true by lia. eexists. split; [reflexivity|]. rewrite Z.add_0_l. lia.
    - intros (rv & Hrv & H1'). destruct ((0 <=? t) && (t <? zlen new)) eqn:E2; [|done]. injection Hrv as <-. rewrite Z.add_0_l in H1'. lia. }
  destruct (skin_ok fss new dss HD ids Ha Hids) as (sk & Hpk & Hsk & Hlen).
  assert (zlen ids <> 0). { destruct Hsk as (ps & _ & Hps & Hpp). apply Hps in Hi0. apply picked_len in Hpp. destruct ps as [|p ps]; [by apply elem_of_nil in Hi0|]. rewrite zlen_cons in Hpp. pose proof (zlen_nonneg ps). lia. }
  replace (zlen ids =? 0) with false by lia. cbn [ubif].
  destruct (part0_ok m1 new ids sk S1 ltac:(lia) Hpk) as (m' & E' & P1 & P2 & P3 & P4). exists m', sk. split; [done|]. split; [done|]. split; [done|]. split; [congruence|]. split; [congruence|]. done.
Qed.
Lemma boundary_nodes_ok : exists l, findBoundaryNodes m = Ok l /\ ascending l /\ forall n, n ∈ l <-> exists i f, alone (concat fss) i /\ concat fss @ i = Some f /\ n ∈ f.2.
Proof.
  destruct computeSkin_ok as (m' & sk & E & S1 & _ & _ & _ & ids & _ & Hids & Hp). unfold findBoundaryNodes. rewrite E. cbn [bind]. destruct (fetched_ok m' sk S1) as (l & El & Ha & Hl). exists l. split; [done|]. split; [done|]. intros n. rewrite Hl. split.
  - intros (_ & f & Hf & Hnf). apply elem_of_zlook in Hf as [a Hf]. destruct (F2_at_r _ _ _ _ _ Hp Hf) as (i & Hi & Hfi). exists i, f. split; [apply Hids; by eapply zlook_elem|done].
  - intros (i & f & Hal & Hf & Hnf). apply Hids, elem_of_zlook in Hal as [a Ha']. destruct (F2_at _ _ _ _ _ Hp Ha') as (f' & Hf' & Hfi). assert (f' = f) as -> by (multimatch goal with H : ?o = Some _, H2 : ?o = Some _ |- _ => exact (some_fun _ _ _ H H2) end). split; [|exists f; split; [by eapply zlook_elem|done]]. destruct (Hg f) as (_ & H & _); [by eapply zlook_elem|]. by apply H.
Qed.
Lemma boundary_cells_ok : exists l, findCellIdsOnBoundary m = Ok l /\ ascending l /\ forall j, j ∈ l <-> exists fs f i, fss @ j = Some fs /\ f ∈ fs /\ concat fss @ i = Some f /\ alone (concat fss) i.
Proof.
  destruct (fast_ok MinusOneSonsGenerator m cells fss nb Hst Hn Hs ltac:(lia) ltac:(cbn; lia) Hg) as (m1 & new & dss & desc & descI & revDesc & revDescI & E & S1 & S2 & S3 & S4 & HD & H1 & H2).
  destruct (stores_get m cells Hst) as (conn & connI & Ec & EI & Hsky & _). destruct Hn as (co & Eco & _). unfold findCellIdsOnBoundary, checkFullyDefined. rewrite EI, Ec, Eco. rewrite (numCells_ok m cells Hst). cbn [bind]. pose proof (zlen_nonneg cells). assert (Hfl : zlen fss = zlen cells) by (unfold zlen; f_equal; symmetry; by eapply Forall2_length).
  destruct (Z.eqb_spec (zlen cells) 0) as [E0|N0]. { exists []. split; [done|]. split; [done|]. intros j. split; [intros Hj; by apply elem_of_nil in Hj|]. intros (fs & f & i & Hfs & _). apply zlook_Some_lt in Hfs. lia. }
  unfold buildDescendingConnectivity. rewrite E. cbn [bind]. destruct (single_ok _ _ _ H2) as (sh & ids & -> & Ef & Ha & Hids). cbn [bind]. rewrite initialised_ok. cbn [bind]. rewrite Ef. cbn [bind]. pose proof (zlen_nonneg new).
  set (revs := owners 0 dss <$> seqZ 0 (zlen new)) in *.
  assert (Hrv : forall t rv, revs @ t = Some rv -> rv = owners 0 dss t /\ 0 <= t < zlen new). { intros t rv. unfold revs. rewrite zlook_fmap, zseq. destruct ((0 <=? t) && (t <? zlen new)) eqn:Et; [|done]. intros [= <-]. rewrite Z.add_0_l. split; [done|lia]. }
  (* the marks *)
  set (own1 := fun (pre : list Z) (j : Z) => exists t, t ∈ pre /\ j ∈ owners 0 dss t).
  assert (W : forall pre post, ids = pre ++ post -> exists F, foldM (fun s pt => let* a := rd revDescI pt in let* c := rd revDesc a in wr s c true) pre (replicate (Z.to_nat (zlen cells)) false) = Ok F /\ zlen F = zlen cells /\ forall j b, F @ j = Some b -> b = true <-> own1 pre j).
  { induction pre as [|t pre IH] using rev_ind; intros post Ep.
    - eexists. split; [reflexivity|]. split; [rewrite zlen_replicate; lia|]. intros j b Hb. rewrite zrep in Hb. destruct (_ && _) in Hb; [|done]. injection Hb as <-. split; [done|]. intros (t & Ht & _). by apply elem_of_nil in Ht.
    - rewrite <- app_assoc in Ep. destruct (IH _ Ep) as (F & EF & HFl & HF). rewrite foldM_app, EF. cbn [bind foldM]. destruct (proj1 (Hids t)) as (rv & Hrv' & H1'); [rewrite Ep; apply elem_of_app; right; left|]. destruct (Hrv t rv Hrv') as [-> Ht].
      destruct (sky_pack revs revDesc revDescI t _ H2 Hrv') as (a & b & Hoa & Hob & Ha0 & Hab & Hbl & Hsub). rewrite (rd_ok _ _ _ Hoa). cbn [bind].
      destruct (owners 0 dss t) as [|c [|c' q]] eqn:Eo; [done| |rewrite !zlen_cons in H1'; pose proof (zlen_nonneg q); lia].
      assert (Hc : revDesc @ a = Some c). { pose proof (f_equal (fun l => l @ 0) Hsub) as Hz0. cbv beta in Hz0. change ([c] @ 0) with (Some c) in Hz0. pose proof (f_equal zlen Hsub) as Hl1. unfold sub in Hl1, Hz0. rewrite zlen_take, zlen_drop in Hl1. change (zlen [c]) with 1 in Hl1. rewrite zlook_take in Hz0 by lia. rewrite zlook_drop in Hz0 by lia. rewrite Hz0. f_equal. lia. }
      rewrite (rd_ok _ _ _ Hc). cbn [bind]. assert (Hcl : 0 <= c < zlen cells). { assert (c ∈ owners 0 dss t) as Hco by (rewrite Eo; left). apply owners_elem in Hco as (ds & Hds & _). apply zlook_Some_lt in Hds. rewrite (D_len fss new dss HD) in Hds. lia. }
      rewrite wr_ok by lia. eexists. split; [reflexivity|]. split; [by rewrite zlen_zset|]. intros j x Hx. rewrite zlook_zset in Hx by lia. destruct (Z.eqb_spec j c) as [->|Nj].
      + injection Hx as <-. split; [|done]. intros _. exists t. split; [apply elem_of_app; right; left|]. rewrite Eo. left.
      + rewrite (HF j x Hx). split; [intros (u & Hu & Hj); exists u; split; [apply elem_of_app; by left|done]|]. intros (u & Hu & Hj). apply elem_of_app in Hu as [Hu|Hu]; [by exists u|]. apply elem_of_list_singleton in Hu as ->. rewrite Eo in Hj. apply elem_of_list_singleton in Hj. done. }
  destruct (W ids []) as (F & -> & HFl & HF); [by rewrite app_nil_r|]. cbn [bind].
  assert (W2 : wp (forZ 0 (zlen cells) (fun i s => let* b := rd F i in Ok (if b : bool then s ++ [i] else s)) []) (fun s => s = List.filter (fun j => default false (F @ j)) (seqZ 0 (zlen cells))) False).
  { apply (wp_forZ (fun i s => s = List.filter (fun j => default false (F @ j)) (seqZ 0 i))); [lia|done| |done]. intros i s Hi ->. destruct (zlook_lt F i) as [b Hb]; [lia|]. rewrite (rd_ok _ _ _ Hb). cbn [bind wp]. rewrite seqZ_app by lia. rewrite List.filter_app. change (seqZ (0 + i) 1) with [0 + i]. rewrite Z.add_0_l. cbn [List.filter]. rewrite Hb. cbn [default]. destruct b; [done|by rewrite app_nil_r]. }
  apply wp_ok in W2 as (s & -> & ->). eexists. split; [reflexivity|]. split.
  { apply asc_filter, inc_asc. intros a b x y Hab Hx Hy. rewrite zseq in Hx, Hy. destruct ((0 <=? a) && _); [|done]. destruct ((0 <=? b) && _); [|done]. injection Hx as <-. injection Hy as <-. lia. }
  intros j. rewrite elem_of_list_In, filter_In, <- elem_of_list_In, elem_of_seqZ. transitivity (own1 ids j).
  { split.
    - intros [Hj Hb]. destruct (zlook_lt F j) as [b Hb']; [lia|]. rewrite Hb' in Hb. cbn in Hb. subst b. by apply (HF j true).
    - intros Ho. pose proof Ho as (t & _ & Ht). apply owners_elem in Ht as (ds & Hds & _). apply zlook_Some_lt in Hds. rewrite (D_len fss new dss HD) in Hds. split; [lia|]. destruct (zlook_lt F j) as [b Hb']; [lia|]. rewrite Hb'. cbn. by apply (HF j b). }
  pose proof HD as (HF2 & _ & H3 & _). split.
  - intros (t & Ht & Hj). apply Hids in Ht as (rv & Hrv' & H1'). destruct (Hrv t rv Hrv') as [-> Ht]. destruct (zlook_lt new t Ht) as [f Hf]. destruct (H3 t f Hf) as (i & Hi & Hfi). pose proof (proj1 (alone_rank fss new dss HD t i Hi) H1') as Hal.
    apply (D_owner fss new dss HD t f j Hf) in Hj as (fs & f' & Hfs & Hf' & Hsn). pose proof Hal as (f2 & Hf2 & Hun). assert (f2 = f) as -> by (multimatch goal with H : ?o = Some _, H2 : ?o = Some _ |- _ => exact (some_fun _ _ _ H H2) end).
    assert (Hf'i : exists i', concat fss @ i' = Some f'). { apply elem_of_zlook. apply zlook_elem in Hfs. clear -Hfs Hf'. induction fss as [|x l IH]; [by apply elem_of_nil in Hfs|]. cbn [concat]. apply elem_of_app. apply elem_of_cons in Hfs as [<-|Hfs]; [by left|right; by apply IH]. }
    destruct Hf'i as [i' Hi']. assert (i' = i) as -> by (by apply (Hun i' f')). exists fs, f', i. done.
  - intros (fs & f & i & Hfs & Hfin & Hfi & Hal). destruct (F2_at _ _ _ _ _ (D_concat fss new dss HD) Hfi) as (t & Ht & f' & Hf' & Hsn). destruct (H3 t f' Hf') as (i' & Hi' & Hfi'). pose proof Hal as (f2 & Hf2 & Hun). assert (f2 = f) as -> by (multimatch goal with H : ?o = Some _, H2 : ?o = Some _ |- _ => exact (some_fun _ _ _ H H2) end). assert (i' = i) as -> by (apply (Hun i' f' Hfi'); by apply sn_sym).
    exists t. split.
    + apply Hids. eexists. split; [unfold revs; rewrite zlook_fmap, zlook_seqZ by (by eapply zlook_Some_lt); reflexivity|]. rewrite Z.add_0_l. by apply (alone_rank fss new dss HD t i Hi').
    + apply (D_owner fss new dss HD t f' j Hf'). exists fs, f. done.
Qed.
End Bound.
