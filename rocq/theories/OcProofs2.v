From stdpp Require Import relations.
From Coq Require Import QArith ZifyBool ZifyNat.
From Verif Require Import CellModel CellSpec CellProofs CellProofs4 CellProofs5 Base DataArray ArrLib FillLib StdModel IndexSpec IndexModel IndexProofs IndexProofs3 IndexProofs4 SkyModel SkyProofs CellTable UmModel UmSpec UmProofs2 UcSpec DsModel DsSpec DsProofs4 DsProofs5 DsProofs6 DsProofs7 OcModel OcSpec OcProofs.
Local Open Scope Z_scope.

Definition two_points (k : cm) : bool := cm_dyn k || negb (cm_dim k =? 1) || (2 <=? cm_nbpts k).
Lemma models_two : forallb two_points models = true. Proof. vm_compute. done. Qed.
Lemma proper1 nb c : proper 1 nb c -> NoDup c.2 /\ 2 <= zlen c.2.
Proof.
  destruct c as [t conn]. intros (k & Hk & Hd & Hpl & Hl & Hc). cbn [fst snd] in *. assert (Hdy : cm_dyn k = false). { destruct (cm_dyn k) eqn:E; [|done]. destruct (dyn_types t k Hk E) as [[-> H]|[[-> H]|[[-> H]|[-> H]]]]; try lia; done. }
  pose proof (CellProofs.forallb_elem _ _ _ models_two (model_in _ _ Hk)) as H. unfold two_points in H. rewrite Hdy, Hd in H. cbn [orb negb Z.eqb Pos.eqb] in H.
  rewrite (static_not_polyhed t k Hk Hdy) in Hc. destruct Hc as (Hnd & _). split; [done|]. rewrite (Hl Hdy). lia.
Qed.
Lemma owners_nodup k dss t : Forall NoDup dss -> NoDup (owners k dss t).
Proof.
  intros H. revert k. induction H as [|ds dss Hd _ IH]; intros k; cbn [owners]; [constructor|]. apply NoDup_app. split.
  - pose proof (proj1 (NoDup_count_occ Z.eq_dec ds) ltac:(by apply NoDup_ListNoDup) t) as Hc. destruct (count_occ Z.eq_dec ds t) as [|[|n]]; cbn [replicate]; [constructor|apply NoDup_singleton|lia].
  - split; [|apply IH]. intros x [-> _]%elem_of_replicate (ds' & Hx & _)%owners_elem. apply zlook_Some_lt in Hx. lia.
Qed.
Lemma nodup_three (l : list Z) : NoDup l -> 3 <= zlen l -> exists i j k, i ∈ l /\ j ∈ l /\ k ∈ l /\ i <> j /\ j <> k /\ i <> k.
Proof.
  intros H L. destruct l as [|i [|j [|k l]]]; try (unfold zlen in L; cbn in L; lia). exists i, j, k. apply NoDup_cons in H as [H1 H]. apply NoDup_cons in H as [H2 _]. set_solver.
Qed.
Lemma three_len (l : list Z) i j k : i ∈ l -> j ∈ l -> k ∈ l -> i <> j -> j <> k -> i <> k -> 3 <= zlen l.
Proof.
  intros Hi Hj Hk N1 N2 N3. assert (H : [i; j; k] ⊆+ l). { apply NoDup_submseteq; [|set_solver]. repeat (apply NoDup_cons; split; [set_solver|]). constructor. }
  apply submseteq_length in H. unfold zlen. cbn in H. lia.
Qed.

Section link.
  Context (cells : list cell) (nb : Z) (fss : list (list cell)) (new : list cell) (dss : list (list Z)) (d dI rD rDI dsi : list Z).
  Hypothesis HP : Forall (proper 1 nb) cells.
  Hypothesis HS : Forall2 (sons MinusOneSonsGenerator) cells fss.
  Hypothesis HD : descends fss new dss.
  Hypothesis H1 : skyline dss d dI.
  Hypothesis H2 : skyline (owners 0 dss <$> seqZ 0 (zlen new)) rD rDI.
  Hypothesis H3 : zlen dsi = zlen new /\ forall t, 0 <= t < zlen new -> dsi @ t = Some (zlen (owners 0 dss t)).

  Definition pt (n t : Z) : Prop := exists f : cell, new @ t = Some f /\ f.2 = [n].
  Lemma pt_inj n t u : pt n t -> pt n u -> t = u.
  Proof using HD. intros (f & Hf & E) (g & Hg & E'). destruct HD as (_ & H & _). apply (H t u f g Hf Hg). rewrite E, E'. by split. Qed.
  Lemma pt_fun n n' t : pt n t -> pt n' t -> n = n'.
  Proof. intros (f & Hf & E) (g & Hg & E'). congruence. Qed.
  Lemma one_node l n : same_nodes l [n] -> l = [n].
  Proof. intros [Hl H]. destruct l as [|x [|y l]]; [done| |rewrite !zlen_cons in Hl; change (zlen (A := Z) []) with 0 in Hl; pose proof (zlen_nonneg l); lia]. f_equal. apply elem_of_list_singleton, H. by left. Qed.
  Lemma cell_pts i c : cells @ i = Some c -> exists ds, dss @ i = Some ds /\ Forall2 pt c.2 ds.
  Proof using HP HS HD.
    intros Hc. destruct (F2_at _ _ _ _ _ HS Hc) as (fs & Hfs & Hson). pose proof HP as HP'; rewrite Forall_forall in HP'. pose proof (HP' c ltac:(by eapply zlook_elem)) as Hpr. rewrite (sons1D_ok nb c fs Hpr Hson) in Hfs.
    destruct HD as (HF & _). destruct (F2_at _ _ _ _ _ HF Hfs) as (ds & Hds & HF2). exists ds. split; [done|]. apply Forall2_fmap_l in HF2. eapply Forall2_impl; [exact HF2|]. intros n t (f & Hf & Hsn). exists f. split; [done|]. by apply one_node.
  Qed.
  Lemma cell_len : zlen dss = zlen cells.
  Proof using HS HD. rewrite (D_len _ _ _ HD). unfold zlen. f_equal. symmetry. by eapply Forall2_length. Qed.
  Lemma cell_back i ds : dss @ i = Some ds -> exists c, cells @ i = Some c /\ proper 1 nb c /\ Forall2 pt c.2 ds.
  Proof using HP HS HD.
    intros Hd. pose proof (zlook_Some_lt _ _ _ Hd) as L. rewrite cell_len in L. destruct (zlook_lt cells i L) as [c Hc]. exists c. split; [done|]. split; [pose proof HP as HP'; rewrite Forall_forall in HP'; apply HP'; by eapply zlook_elem|].
    destruct (cell_pts i c Hc) as (ds' & Hd' & HF). replace ds with ds' by congruence. done.
  Qed.
  Lemma in_pts l ds t : Forall2 pt l ds -> t ∈ ds <-> exists n, n ∈ l /\ pt n t.
  Proof using HD.
    intros HF. split.
    - intros Ht. apply elem_of_zlook in Ht as [q Hq]. destruct (F2_at_r _ _ _ _ _ HF Hq) as (n & Hn & Hp). exists n. split; [by eapply zlook_elem|done].
    - intros (n & Hn & Hp). apply elem_of_zlook in Hn as [q Hq]. destruct (F2_at _ _ _ _ _ HF Hq) as (u & Hu & Hp'). rewrite (pt_inj n t u Hp Hp'). by eapply zlook_elem.
  Qed.
  Lemma owner_node t n j : pt n t -> j ∈ owners 0 dss t <-> exists c, cells @ j = Some c /\ n ∈ c.2.
  Proof using HP HS HD.
    intros Hp. rewrite owners_elem, Z.sub_0_r. split.
    - intros (ds & Hds & Ht). destruct (cell_back j ds Hds) as (c & Hc & _ & HF). exists c. split; [done|]. destruct (proj1 (in_pts _ _ _ HF) Ht) as (n' & Hn' & Hp'). by rewrite (pt_fun n n' t Hp Hp').
    - intros (c & Hc & Hn). destruct (cell_pts j c Hc) as (ds & Hds & HF). exists ds. split; [done|]. apply (in_pts _ _ _ HF). by exists n.
  Qed.
  Lemma pts_nodup l ds : NoDup l -> Forall2 pt l ds -> NoDup ds.
  Proof.
    intros HN HF. induction HF as [|n t l ds Hp HF IH]; [constructor|]. apply NoDup_cons in HN as [N1 N2]. apply NoDup_cons. split; [|by apply IH].
    intros Ht. apply elem_of_zlook in Ht as [q Hq]. destruct (F2_at_r _ _ _ _ _ HF Hq) as (n' & Hn & Hp'). apply N1. rewrite (pt_fun n n' t Hp Hp'). by eapply zlook_elem.
  Qed.
  Lemma dss_nodup : Forall NoDup dss.
  Proof using HP HS HD. apply Forall_forall. intros ds Hd. apply elem_of_zlook in Hd as [i Hi]. destruct (cell_back i ds Hi) as (c & _ & Hp & HF). apply (pts_nodup c.2 ds); [|done]. by apply (proper1 nb). Qed.
  Lemma some_pt t : 0 <= t < zlen new -> exists n, pt n t.
  Proof using HP HS HD.
    intros Ht. destruct (zlook_lt new t Ht) as [f Hf]. pose proof HD as (HF & _ & H & _). destruct (H t f Hf) as (i & [Hi _] & _). apply zlook_elem in Hi. apply elem_of_list_In, in_concat in Hi as (ds & Hds & Ht'). apply elem_of_list_In in Hds, Ht'. apply elem_of_zlook in Hds as [j Hj].
    destruct (cell_back j ds Hj) as (c & _ & _ & HF2). destruct (proj1 (in_pts _ _ _ HF2) Ht') as (n & _ & Hp). by exists n.
  Qed.
  Lemma node_pt i c n : cells @ i = Some c -> n ∈ c.2 -> exists t, pt n t /\ 0 <= t < zlen new.
  Proof using HP HS HD.
    intros Hc Hn. destruct (cell_pts i c Hc) as (ds & Hds & HF). apply elem_of_zlook in Hn as [q Hq]. destruct (F2_at _ _ _ _ _ HF Hq) as (t & Ht & Hp). exists t. split; [done|]. destruct Hp as (f & Hf & _). by eapply zlook_Some_lt.
  Qed.

  Definition segs : list (Z * Z) := (fun ds => match ds with a :: b :: _ => (a, b) | _ => (0, 0) end) <$> dss.
  Lemma segs_at i a b : segs @ i = Some (a, b) <-> exists r, dss @ i = Some (a :: b :: r).
  Proof using HP HS HD.
    unfold segs. rewrite zlook_fmap. split.
    - destruct (dss @ i) as [ds|] eqn:E; [|done]. destruct (cell_back i ds E) as (c & _ & Hp & HF). apply proper1 in Hp as [_ L]. pose proof (Forall2_length _ _ _ HF). unfold zlen in L.
      destruct ds as [|x [|y r]]; cbn [length] in *; try lia. cbn. intros [= -> ->]. by exists r.
    - intros (r & ->). done.
  Qed.
  Lemma hasp_iff i p : hasp segs i p <-> exists n, pt n p /\ has_end cells i n.
  Proof using HP HS HD.
    split.
    - intros (a & b & Hs & Hp). apply segs_at in Hs as (r & Hs). destruct (cell_back i _ Hs) as (c & Hc & _ & HF). destruct (Forall2_cons_inv_r _ _ _ _ HF) as (x & l1 & P1 & HF1 & E1). destruct (Forall2_cons_inv_r _ _ _ _ HF1) as (y & l2 & P2 & _ & ->).
      destruct Hp as [->| ->]; [exists x|exists y]; (split; [done|]); exists c; (split; [done|]); rewrite E1; cbn; [left|right; left].
    - intros (n & Hp & c & Hc & Hn). destruct (cell_pts i c Hc) as (ds & Hds & HF). pose proof HP as HP'; rewrite Forall_forall in HP'. pose proof (HP' c ltac:(by eapply zlook_elem)) as Hpr. apply proper1 in Hpr as [_ L].
      destruct c as [ty [|x [|y l]]]; cbn [fst snd] in *; try (exfalso; clear -L; unfold zlen in L; cbn in L; lia). destruct (Forall2_cons_inv_l _ _ _ _ HF) as (a & l1 & P1 & HF1 & E1). destruct (Forall2_cons_inv_l _ _ _ _ HF1) as (b & l2 & P2 & _ & ->). subst ds.
      exists a, b. split; [apply segs_at; by exists l2|]. cbn in Hn. apply elem_of_cons in Hn as [->|Hn]; [left; by eapply pt_inj|]. apply elem_of_list_singleton in Hn as ->. right. by eapply pt_inj.
  Qed.
  Lemma share_iff i j : share segs i j <-> touch cells i j.
  Proof using HP HS HD.
    split.
    - intros (p & Hi & Hj). apply hasp_iff in Hi as (n & Hn & Hi), Hj as (n' & Hn' & Hj). rewrite <- (pt_fun n n' p Hn Hn') in Hj. by exists n.
    - intros (n & Hi & Hj). pose proof Hi as (c & Hc & Hn). destruct (node_pt i c n Hc) as (t & Ht & _); [by eapply elem_of_submseteq in Hn; [|apply submseteq_take]|]. exists t. split; apply hasp_iff; exists n; done.
  Qed.
  Lemma Hends_ok i a b : segs @ i = Some (a, b) -> a <> b /\ 0 <= a /\ 0 <= b /\ exists o, dI @ i = Some o /\ d @ o = Some a /\ d @ (o + 1) = Some b.
  Proof using HP HS HD H1.
    clear H2 H3. intros Hs. apply segs_at in Hs as (r & Hs). pose proof dss_nodup as HN. rewrite Forall_forall in HN. pose proof (HN _ ltac:(by eapply zlook_elem)) as Hn. apply NoDup_cons in Hn as [Hn _].
    destruct (cell_back i _ Hs) as (c & Hc & _ & HF). assert (R : forall t, t ∈ a :: b :: r -> 0 <= t). { intros t Ht. destruct (proj1 (in_pts _ _ _ HF) Ht) as (n & _ & f & Hf & _). apply zlook_Some_lt in Hf. lia. }
    split; [set_solver|]. split; [apply R; set_solver|]. split; [apply R; set_solver|].
    destruct (sky_pack _ _ _ _ _ H1 Hs) as (u & v & Hu & Hv & B0 & B1 & B2 & Hsub). exists u. split; [done|].
    assert (G : forall q x, (a :: b :: r) @ q = Some x -> d @ (u + q) = Some x). { intros q x Hq. pose proof (zlook_Some_lt _ _ _ Hq) as Lq. rewrite Hsub in Hq, Lq. unfold sub in *. rewrite zlen_take, zlen_drop in Lq. rewrite zlook_take in Hq by lia. rewrite zlook_drop in Hq by lia. rewrite <- Hq. f_equal. lia. }
    split; [replace u with (u + 0) by lia; by apply G|by apply G].
  Qed.
  Lemma Hpts_ok i p : is_line cells -> hasp segs i p -> (dsi @ p = Some 1 /\ forall t, hasp segs t p -> t = i) \/
    (dsi @ p = Some 2 /\ exists k s1 s2, rDI @ p = Some k /\ rD @ k = Some s1 /\ rD @ (k + 1) = Some s2 /\ s1 <> s2 /\ forall t, hasp segs t p <-> t = s1 \/ t = s2).
  Proof using HP HS HD H2 H3.
    clear H1. intros [LA LB] Hp. apply hasp_iff in Hp as (n & Hn & Hi). pose proof Hn as (f & Hf & _). pose proof (zlook_Some_lt _ _ _ Hf) as Lp. destruct H3 as [_ HW]. rewrite (HW p Lp). clear HW.
    assert (HU : forall t, hasp segs t p <-> t ∈ owners 0 dss p).
    { intros t. rewrite hasp_iff, (owner_node p n t Hn). split.
      - intros (n' & Hn' & c & Hc & He). rewrite (pt_fun n n' p Hn Hn'). exists c. split; [done|]. by eapply elem_of_submseteq in He; [|apply submseteq_take].
      - intros (c & Hc & He). exists n. split; [done|]. exists c. split; [done|]. by apply (LB n i t c Hi Hc). }
    pose proof (owners_nodup 0 dss p dss_nodup) as HN. assert (Hio : i ∈ owners 0 dss p) by (apply HU, hasp_iff; by exists n).
    assert (HO : (owners 0 dss <$> seqZ 0 (zlen new)) @ p = Some (owners 0 dss p)) by (rewrite zlook_fmap, zlook_seqZ by lia; done).
    destruct (sky_pack _ _ _ _ _ H2 HO) as (u & v & Hu & Hv & B0 & B1 & B2 & Hsub).
    assert (G : forall q x, owners 0 dss p @ q = Some x -> rD @ (u + q) = Some x). { intros q x Hq. pose proof (zlook_Some_lt _ _ _ Hq) as Lq. rewrite Hsub in Hq, Lq. unfold sub in *. rewrite zlen_take, zlen_drop in Lq. rewrite zlook_take in Hq by lia. rewrite zlook_drop in Hq by lia. rewrite <- Hq. f_equal. lia. }
    destruct (Z_le_gt_dec 3 (zlen (owners 0 dss p))) as [L3|L3].
    { destruct (nodup_three _ HN L3) as (x & y & z & Hx & Hy & Hz & N1 & N2 & N3). apply (owner_node p n _ Hn) in Hx as (cx & Hcx & Hnx), Hy as (cy & Hcy & Hny), Hz as (cz & Hcz & Hnz). destruct (LA n x y z cx cy cz Hcx Hcy Hcz Hnx Hny Hnz) as [|[|]]; done. }
    clear Hsub H2. destruct (owners 0 dss p) as [|s1 [|s2 [|s3 r]]] eqn:EO.
    - by apply elem_of_nil in Hio.
    - left. split; [done|]. apply elem_of_list_singleton in Hio as ->. intros t Ht. apply HU in Ht. by apply elem_of_list_singleton in Ht.
    - right. split; [done|]. exists u, s1, s2. split; [done|]. split; [replace u with (u + 0) by lia; by apply G|]. split; [by apply G|]. split; [apply NoDup_cons in HN; set_solver|]. intros t. rewrite HU. set_solver.
    - exfalso. rewrite !zlen_cons in L3. pose proof (zlen_nonneg r). lia.
  Qed.
  Lemma few_cells : is_line cells -> existsb (fun v => (v <? 0) || (3 <=? v)) dsi = false.
  Proof using HP HS HD H3.
    clear H1 H2. intros [LA _]. apply not_true_iff_false. intros HE. apply existsb_exists in HE as (v & Hv & Hb). apply elem_of_list_In in Hv. apply elem_of_zlook in Hv as [t Ht]. pose proof (zlook_Some_lt _ _ _ Ht) as Lt. destruct H3 as [HL HW]. rewrite HL in Lt. rewrite (HW t Lt) in Ht. injection Ht as <-.
    pose proof (zlen_nonneg (owners 0 dss t)). destruct (some_pt t Lt) as (n & Hn). destruct (nodup_three _ (owners_nodup 0 dss t dss_nodup) ltac:(lia)) as (x & y & z & Hx & Hy & Hz & N1 & N2 & N3).
    apply (owner_node t n _ Hn) in Hx as (cx & Hcx & Hnx), Hy as (cy & Hcy & Hny), Hz as (cz & Hcz & Hnz). destruct (LA n x y z cx cy cz Hcx Hcy Hcz Hnx Hny Hnz) as [|[|]]; done.
  Qed.
  Lemma many_cells n i j k (ci cj ck : cell) : cells @ i = Some ci -> cells @ j = Some cj -> cells @ k = Some ck -> n ∈ ci.2 -> n ∈ cj.2 -> n ∈ ck.2 -> i <> j -> j <> k -> i <> k ->
    existsb (fun v => (v <? 0) || (3 <=? v)) dsi = true.
  Proof using HP HS HD H3.
    clear H1 H2. intros Hi Hj Hk Ni Nj Nk N1 N2 N3. destruct (node_pt i ci n Hi Ni) as (t & Ht & Lt). apply existsb_exists. exists (zlen (owners 0 dss t)). split; [apply elem_of_list_In; eapply zlook_elem; by apply H3|].
    assert (3 <= zlen (owners 0 dss t)); [|lia]. apply (three_len _ i j k); try done; apply (owner_node t n _ Ht); eauto.
  Qed.
End link.

Lemma descending1 m cells nb : stores m cells -> has_nodes m nb -> um_dim m = 1 -> Forall (proper 1 nb) cells ->
  exists fss new dss d dI rD rDI dsi, Forall2 (sons MinusOneSonsGenerator) cells fss /\ descends fss new dss /\ skyline dss d dI /\ skyline (owners 0 dss <$> seqZ 0 (zlen new)) rD rDI /\
    (zlen dsi = zlen new /\ forall t, 0 <= t < zlen new -> dsi @ t = Some (zlen (owners 0 dss t))) /\
    orderConsecutiveCells1D m = (throw_if existsb (fun v => (v <? 0) || (3 <=? v)) dsi >>> pieces (Z.to_nat (zlen cells) + 1) d dI rD rDI dsi (zlen cells) 0 [] (seqZ 0 (zlen cells))).
Proof.
  intros Hst Hn Hd HP. destruct (all_sons 1 nb cells ltac:(lia) HP) as (fss & Hs & Hg).
  destruct (fast_ok MinusOneSonsGenerator m cells fss nb Hst Hn Hs ltac:(lia) ltac:(cbn; lia) ltac:(cbn [g_delta MinusOneSonsGenerator]; by rewrite Hd)) as (m' & new & dss & desc & descI & revDesc & revDescI & E & _ & _ & _ & _ & HD & H1 & H2).
  pose proof H2 as [_ Hp]. pose proof Hp as [HpI _]. rewrite zlen_fmap in HpI. pose proof (zlen_nonneg new) as Ln. rewrite zlen_fmap, zlen_seqZ, Z.max_r in HpI by lia.
  assert (Hnt : forall l : list Z, da_nt (vec l) = zlen l) by (intros l; unfold da_nt, vec; cbn; by rewrite Z.quot_1_r).
  destruct (delta_ok (vec revDescI) eq_refl eq_refl) as (sh & Es & Hl & Hsh); [rewrite Hnt; lia|]. rewrite Hnt in Hl. cbn [da_vals vec] in Hsh.
  exists fss, new, dss, desc, descI, revDesc, revDescI, sh. split; [done|]. split; [done|]. split; [done|]. split; [done|]. split.
  - split; [lia|]. intros t Ht. destruct (psums_delta _ _ t (zlen (owners 0 dss t)) Hp) as (a & Ha & Hb); [rewrite !zlook_fmap, zlook_seqZ by lia; done|]. rewrite (Hsh t a _ Ha Hb). f_equal. lia.
  - pose proof Hst as (conn & connI & Ec & Ei & _). destruct Hn as (co & Eco & _). unfold orderConsecutiveCells1D, checkFullyDefined. rewrite Ec, Ei, Eco, Hd. cbn [Z.eqb Pos.eqb negb ifthrow].
    unfold buildDescendingConnectivity. rewrite E. cbn [bind]. rewrite Es. cbn [bind]. rewrite initialised_ok. cbn [bind]. rewrite (numCells_ok m cells Hst). done.
Qed.
Lemma order_ok m cells nb : stores m cells -> has_nodes m nb -> um_dim m = 1 -> Forall (proper 1 nb) cells -> is_line cells ->
  exists parts, orderConsecutiveCells1D m = Ok (concat parts) /\ concat parts ≡ₚ seqZ 0 (zlen cells) /\ (forall l, l ∈ parts -> l <> [] /\ consecutive cells l) /\
    forall l i j, l ∈ parts -> i ∈ l -> touch cells i j -> j ∈ l.
Proof.
  intros Hst Hn Hd HP HL. destruct (descending1 m cells nb Hst Hn Hd HP) as (fss & new & dss & d & dI & rD & rDI & dsi & Hs & HD & H1 & H2 & H3 & ->).
  rewrite (few_cells cells nb fss new dss dsi HP Hs HD H3 HL). cbn [ifthrow].
  destruct (core_ok d dI rD rDI dsi (segs dss)) with (n := zlen cells) as (ps & -> & HG & HPm).
  - intros i a b. by eapply Hends_ok.
  - intros i p. by eapply Hpts_ok.
  - unfold segs. rewrite zlen_fmap. symmetry. by eapply cell_len.
  - exists ps. split; [done|]. split; [done|]. rewrite Forall_forall in HG. split.
    + intros l Hl. destruct (HG l Hl) as (N & C & _). split; [done|]. intros k i j Hi Hj. eapply share_iff; try done. by apply (C k).
    + intros l i j Hl Hi Ht. destruct (HG l Hl) as (_ & _ & C). eapply share_iff in Ht as (p & Pi & Pj); try done. by apply (C i p Hi Pi).
Qed.
Lemma branch_ok m cells nb n i j k (ci cj ck : cell) : stores m cells -> has_nodes m nb -> um_dim m = 1 -> Forall (proper 1 nb) cells ->
  cells @ i = Some ci -> cells @ j = Some cj -> cells @ k = Some ck -> n ∈ ci.2 -> n ∈ cj.2 -> n ∈ ck.2 -> i <> j -> j <> k -> i <> k -> orderConsecutiveCells1D m = Throw.
Proof.
  intros Hst Hn Hd HP Hi Hj Hk Ni Nj Nk N1 N2 N3. destruct (descending1 m cells nb Hst Hn Hd HP) as (fss & new & dss & d & dI & rD & rDI & dsi & Hs & HD & H1 & H2 & H3 & ->).
  by rewrite (many_cells cells nb fss new dss dsi HP Hs HD H3 n i j k ci cj ck Hi Hj Hk Ni Nj Nk N1 N2 N3).
Qed.
Lemma connected_ok m cells nb : stores m cells -> has_nodes m nb -> um_dim m = 1 -> Forall (proper 1 nb) cells -> is_line cells -> connected cells ->
  exists l, orderConsecutiveCells1D m = Ok l /\ l ≡ₚ seqZ 0 (zlen cells) /\ consecutive cells l.
Proof.
  intros Hst Hn Hd HP HL HC. destruct (order_ok m cells nb Hst Hn Hd HP HL) as (parts & E & Hpm & Hc & Ht). exists (concat parts). split; [done|]. split; [done|].
  destruct parts as [|l parts]; [intros k i j Hi; cbn [concat] in Hi; by rewrite zlook_nil in Hi|]. destruct (Hc l ltac:(by left)) as [Hne Hcl]. destruct l as [|x l]; [done|].
  assert (G : forall j, 0 <= j < zlen cells -> j ∈ x :: l).
  { intros j Hj. assert (Hx : 0 <= x < zlen cells). { assert (x ∈ seqZ 0 (zlen cells)) as ?%elem_of_seqZ by (rewrite <- Hpm; cbn [concat]; by left). lia. }
    assert (K : forall a b, rtc (touch cells) a b -> a ∈ x :: l -> b ∈ x :: l) by (intros a b Hab; induction Hab as [|a c b Hac _ IH]; [done|]; intros Ha; apply IH; by apply (Ht (x :: l) a c ltac:(by left))).
    apply (K x j); [by apply HC|by left]. }
  destruct parts as [|l' parts]; [cbn [concat]; by rewrite app_nil_r|]. exfalso. destruct (Hc l' ltac:(right; by left)) as [Hne' _]. destruct l' as [|y l']; [done|].
  assert (HN : NoDup (concat ((x :: l) :: (y :: l') :: parts))) by (rewrite Hpm; apply NoDup_seqZ). cbn [concat] in HN. apply NoDup_app in HN as (_ & HN & _).
  assert (Hy : 0 <= y < zlen cells). { assert (y ∈ seqZ 0 (zlen cells)) as ?%elem_of_seqZ by (rewrite <- Hpm; cbn [concat]; rewrite !elem_of_app; right; left; by left). lia. }
  apply (HN y (G y Hy)). rewrite elem_of_app. left. by left.
Qed.
Lemma dimension_ok m : um_dim m <> 1 -> orderConsecutiveCells1D m = Throw.
Proof. intros N. unfold orderConsecutiveCells1D, checkFullyDefined. destruct (um_connI m), (um_conn m), (um_coords m); try done. by replace (um_dim m =? 1) with false by lia. Qed.
