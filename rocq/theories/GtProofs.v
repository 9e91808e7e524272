From Coq Require Import QArith ZifyBool ZifyNat.
From stdpp Require Import gmap.
From Verif Require Import CellModel Base DataArray ArrLib FillLib SearchSpec SearchModel SearchProofs IndexSpec IndexProofs IndexProofs2 IndexProofs4 SkySpec SkyModel SkyProofs SkyProofs4 CellTable CellProofs5 DsProofs6 GlModel UmModel UmSpec UmProofs UmProofs2 UmProofs3 UmProofs4 UmProofs8 UmProofs9 MgSpec GtModel GtSpec.
Local Open Scope Z_scope.

(** * The nodes of the cells *)
Lemma sub_split {A} (l : list A) a b : 0 <= a <= b -> b <= zlen l -> exists P R, l = P ++ sub l a b ++ R /\ zlen P = a /\ zlen (sub l a b) = b - a.
Proof.
  intros H1 H2. exists (take (Z.to_nat a) l), (drop (Z.to_nat b) l). split; [|split; [rewrite zlen_take; lia|unfold sub; rewrite zlen_take, zlen_drop; lia]]. rewrite <- (take_drop (Z.to_nat a) l) at 1. f_equal. unfold sub.
  rewrite <- (take_drop (Z.to_nat (b - a)) (drop (Z.to_nat a) l)) at 1. f_equal. rewrite drop_drop. f_equal. lia.
Qed.
Lemma span_loop {St} conn a b (body : Z -> St -> res St) s : 0 <= a <= b -> b <= zlen conn -> forZ a b (fun j s => let* v := rd conn j in body v s) s = foldM (fun s v => body v s) (sub conn a b) s.
Proof.
  intros H1 H2. destruct (sub_split conn a b H1 H2) as (P & R & E & HP & Hl). pose proof (inner_loop P (sub conn a b) R body s) as Hi. rewrite <- E, HP, Hl in Hi. replace (a + (b - a)) with b in Hi by lia. exact Hi.
Qed.
Lemma span_list conn a b : 0 <= a <= b -> b <= zlen conn -> forZ a b (fun j (l : list Z) => let* v := rd conn j in Ok (l ++ [v])) [] = Ok (sub conn a b).
Proof.
  intros H1 H2. rewrite (span_loop conn a b (fun v l => Ok (l ++ [v])) [] H1 H2). enough (G : forall (ns l : list Z), foldM (fun (s : list Z) v => Ok (s ++ [v])) ns l = Ok (l ++ ns)) by apply (G _ []).
  clear. induction ns as [|v ns IH]; intros l; cbn [foldM bind]; [by rewrite app_nil_r|]. rewrite IH, <- app_assoc. done.
Qed.
(** The bounds of the nodes of each cell. *)
Definition bounded (conn : list Z) (lo hi : Z -> res Z) (k : Z) (cells : list cell) : Prop :=
  forall i c, cells @ i = Some c -> exists a b, lo (k + i) = Ok a /\ hi (k + i) = Ok b /\ 0 <= a <= b /\ b <= zlen conn /\ c.2 = sub conn a b.
Lemma bounded_tail conn lo hi k c cells : bounded conn lo hi k (c :: cells) -> bounded conn lo hi (k + 1) cells.
Proof.
  intros H i d Hd. apply zlook_Some_lt in Hd as ?. destruct (H (i + 1) d) as (a & b & E1 & E2 & ?); [rewrite zlook_cons; replace (i + 1 =? 0) with false by lia; replace (i + 1 - 1) with i by lia; done|].
  exists a, b. replace (k + 1 + i) with (k + (i + 1)) by lia. done.
Qed.
Lemma occ_cons {St} k (ns : list Z) (body : Z -> Z -> St -> res St) s : foldM (fun s p => body p.1 p.2 s) ((fun v => (k, v)) <$> ns) s = foldM (fun s v => body k v s) ns s.
Proof. revert s. induction ns as [|x l IHl]; intros s0; [done|]. rewrite fmap_cons. cbn [foldM fst snd]. destruct (body k x s0); cbn [bind]; [apply IHl|done..]. Qed.
Lemma nodesIn_from {St} conn lo hi k cells (body : Z -> Z -> St -> res St) s : bounded conn lo hi k cells ->
  forZ k (k + zlen cells) (fun i s => let* a := lo i in let* b := hi i in forZ a b (fun j s => let* v := rd conn j in body i v s) s) s = foldM (fun s p => body p.1 p.2 s) (occ k cells) s.
Proof.
  revert k s. induction cells as [|c r IH]; intros k s H; [apply forZ_empty; rewrite zlen_nil; lia|]. rewrite zlen_cons. pose proof (zlen_nonneg r). rewrite forZ_step by lia.
  destruct (H 0 c eq_refl) as (a & b & E1 & E2 & Hab & Hb & Ec). rewrite Z.add_0_r in E1, E2. rewrite E1, E2. cbn [bind occ]. rewrite span_loop by done. rewrite foldM_app, occ_cons, Ec. destruct (foldM _ (sub conn a b) s) as [s'| | |]; cbn [bind]; try done.
  rewrite <- IH by (by eapply bounded_tail). f_equal. lia.
Qed.
Lemma nodesIn_ok {St} conn lo hi cells (body : Z -> Z -> St -> res St) s : bounded conn lo hi 0 cells -> nodesIn conn lo hi (zlen cells) body s = foldM (fun s p => body p.1 p.2 s) (occ 0 cells) s.
Proof. intros H. unfold nodesIn. apply (nodesIn_from conn lo hi 0 cells body s H). Qed.

(** * Static types *)
Lemma static_pos t k : GetCellModel t = Ok k -> cm_dyn k = false -> 0 < cm_nbpts k.
Proof.
  intros H Hd. apply model_in in H. assert (G : forallb (fun k => cm_dyn k || (0 <? cm_nbpts k)) models = true) by (vm_compute; reflexivity).
  rewrite forallb_forall in G. apply elem_of_list_In in H. apply G in H. rewrite Hd in H. cbn in H. lia.
Qed.
Lemma concat_same (cells : list cell) k : (forall c, c ∈ cells -> zlen c.2 = k) -> zlen (concat (snd <$> cells)) = zlen cells * k.
Proof.
  intros H. induction cells as [|c r IH]; [done|]. rewrite fmap_cons. cbn [concat]. rewrite zlen_app, zlen_cons, IH by (intros; apply H; by right). rewrite (H c) by left. lia.
Qed.
Lemma concat_at (cells : list cell) k i c : (forall c, c ∈ cells -> zlen c.2 = k) -> cells @ i = Some c -> 0 <= i * k /\ i * k <= (i + 1) * k /\ (i + 1) * k <= zlen (concat (snd <$> cells)) /\ c.2 = sub (concat (snd <$> cells)) (i * k) ((i + 1) * k).
Proof.
  intros Hk Hi. assert (Hk0 : zlen c.2 = k) by (apply Hk; by eapply zlook_elem). pose proof (zlen_nonneg c.2). apply zlook_Some_lt in Hi as Hl. rewrite (concat_same _ k Hk). split; [nia|]. split; [nia|]. split; [nia|].
  assert (Hsp : cells = take (Z.to_nat i) cells ++ c :: drop (Datatypes.S (Z.to_nat i)) cells). { rewrite take_drop_middle; [done|]. rewrite <- Hi. unfold zlook. replace (i <? 0) with false by lia. done. }
  rewrite Hsp at 1. rewrite fmap_app, fmap_cons, concat_app. cbn [concat]. assert (HP : zlen (concat (snd <$> take (Z.to_nat i) cells)) = i * k).
  { rewrite (concat_same _ k). - rewrite zlen_take. lia. - intros d Hd. apply Hk. rewrite Hsp. apply elem_of_app. by left. }
  unfold sub. rewrite drop_z by lia. rewrite take_z by lia. done.
Qed.
Section S.
Context (m : sgt) (cells : list cell) (H : s_holds m cells).
Let k := cm_nbpts (sg_cm m).
Let conn := concat (snd <$> cells).
Lemma s_k : 0 < k.
Proof using All. destruct H as (H1 & H2 & _). by eapply static_pos. Qed.
Lemma s_len c : c ∈ cells -> zlen c.2 = k.
Proof using All. intros Hc. destruct H as (_ & _ & H3 & _). by apply H3. Qed.
Lemma s_conn : sg_conn m = Some conn.
Proof using All. apply H. Qed.
Lemma s_perCell : S_getNumberOfNodesPerCell m = Ok k.
Proof using All. destruct H as (_ & H2 & _). unfold S_getNumberOfNodesPerCell, ifthrow. rewrite H2. done. Qed.
Lemma s_zlen : zlen conn = zlen cells * k.
Proof using All. apply concat_same, s_len. Qed.
Lemma s_num : S_getNumberOfCells m = Ok (zlen cells).
Proof using All.
  unfold S_getNumberOfCells, S_getNodalConnectivityLength. rewrite s_conn, s_perCell. cbn [bind]. pose proof s_k. replace (k =? 0) with false by lia. unfold ubif, ifthrow. rewrite s_zlen, Z.rem_mul, Z.quot_mul by lia. done.
Qed.
Lemma s_bounded : bounded conn (sLo k) (sHi k) 0 cells.
Proof using All.
  intros i c Hc. destruct (concat_at cells k i c s_len Hc) as (H1 & H2 & H3 & H4). exists (i * k), ((i + 1) * k). rewrite Z.add_0_l. unfold sLo, sHi. split; [done|]. split; [done|]. split; [lia|]. split; done.
Qed.
Lemma s_occ : conn = snd <$> occ 0 cells.
Proof using All. unfold conn. generalize 0. clear. induction cells as [|c r IH]; intros z; [done|]. rewrite fmap_cons. cbn [concat occ]. rewrite fmap_app, <- IH. f_equal. rewrite <- list_fmap_compose. induction (c.2) as [|x l IHl]; [done|]. rewrite fmap_cons. rewrite <- IHl. done. Qed.
Lemma s_occ_fold {St} (body : Z -> St -> res St) s : foldM (fun s v => body v s) conn s = foldM (fun s (p : Z * Z) => body p.2 s) (occ 0 cells) s.
Proof using All. rewrite s_occ. generalize (occ 0 cells) s. clear. induction l as [|p l IH]; intros s; [done|]. rewrite fmap_cons. cbn [foldM]. destruct (body p.2 s); cbn [bind]; [apply IH|done..]. Qed.
End S.

(** * Dynamic types *)
Lemma isMono_ok l : nondecreasing l -> isMonotonic true (vec l) = Ok true.
Proof. intros H. destruct (isMonotonic_ok (vec l) eq_refl eq_refl true) as (r & E & Hr). rewrite E. f_equal. by apply Hr. Qed.
Section D.
Context (m : dgt) (cells : list cell) (conn connI : list Z) (f : Z).
Hypothesis Ec : dg_conn m = Some conn.
Hypothesis EI : dg_connI m = Some connI.
Hypothesis Hl : zlen connI = zlen cells + 1.
Hypothesis Hp : forall i c, cells @ i = Some c -> pack conn connI i c.2.
Hypothesis H0 : connI @ 0 = Some f.
Hypothesis Hf : 0 <= f <= zlen conn.
Hypothesis Hf2 : 0 < zlen conn -> f < zlen conn.
Lemma d_step i a b : connI @ i = Some a -> connI @ (i + 1) = Some b -> a <= b <= zlen conn.
Proof using All.
  intros Ha Hb. apply zlook_Some_lt in Ha as ?. apply zlook_Some_lt in Hb as ?. destruct (zlook_lt cells i) as [c Hc]; [lia|]. destruct (Hp i c Hc) as (a' & b' & E1 & E2 & ? & ? & ? & _). replace a' with a in * by congruence. replace b' with b in * by congruence. lia.
Qed.
Lemma d_mono : nondecreasing connI.
Proof using All.
  intros i j x y Hij Hx. apply zlook_Some_lt in Hx as Hi. revert y. pattern j. apply (Zlt_lower_bound_ind _ (i + 1)); [|lia]. clear j Hij. intros j IH Hj y Hy. destruct (decide (j = i + 1)) as [->|N].
  - by apply (d_step i x y).
  - apply zlook_Some_lt in Hy as ?. destruct (zlook_lt connI (j - 1)) as [z Hz]; [lia|]. pose proof (IH (j - 1) ltac:(lia) z Hz). replace j with (j - 1 + 1) in Hy by lia. pose proof (d_step _ _ _ Hz Hy). lia.
Qed.
Lemma d_last : exists ll, connI @ (zlen connI - 1) = Some ll /\ f <= ll <= zlen conn.
Proof using All.
  pose proof (zlen_nonneg cells). destruct (zlook_lt connI (zlen connI - 1)) as [ll Hll]; [lia|]. exists ll. split; [done|]. destruct (decide (zlen cells = 0)) as [E|E].
  - replace (zlen connI - 1) with 0 in Hll by lia. replace ll with f by congruence. lia.
  - pose proof (d_mono 0 (zlen connI - 1) f ll ltac:(lia) H0 Hll). destruct (zlook_lt connI (zlen cells - 1)) as [z Hz]; [lia|]. pose proof (d_step (zlen cells - 1) z ll Hz) as G. replace (zlen cells - 1 + 1) with (zlen connI - 1) in G by lia. specialize (G Hll). lia.
Qed.
Lemma d_check {A} (k : list Z -> list Z -> res A) : D_checkConsistencyOfConnectivity m k = k conn connI.
Proof using All.
  unfold D_checkConsistencyOfConnectivity. rewrite Ec, EI. destruct d_last as (ll & E & Hll). pose proof (zlen_nonneg cells). rewrite (rd_ok _ _ _ H0), (rd_ok _ _ _ E). unfold ifthrow. cbn [bind].
  replace (zlen connI <? 1) with false by lia. replace ((f <? 0) || _) with false by lia. replace ((ll <? 0) || (zlen conn <? ll)) with false by lia. replace (ll <? f) with false by lia. replace (zlen conn <? ll) with false by lia. done.
Qed.
Lemma d_num : D_getNumberOfCells m = Ok (zlen cells).
Proof using All. unfold D_getNumberOfCells. rewrite d_check. f_equal. lia. Qed.
Lemma d_get {A} (k : list Z -> list Z -> res A) : D_unchecked m k = k conn connI.
Proof using All. unfold D_unchecked. rewrite Ec, EI. done. Qed.
Lemma d_bounded : bounded conn (dLo connI) (dHi connI) 0 cells.
Proof using All.
  intros i c Hc. destruct (Hp i c Hc) as (a & b & E1 & E2 & ? & ? & ? & E). exists a, b. rewrite Z.add_0_l. unfold dLo, dHi. rewrite (rd_ok _ _ _ E1), (rd_ok _ _ _ E2). split; [done|]. split; [done|]. split; [lia|]. done.
Qed.
Lemma d_boundedC : bounded conn (dLo connI) (dHiChecked connI) 0 cells.
Proof using All.
  intros i c Hc. destruct (Hp i c Hc) as (a & b & E1 & E2 & ? & ? & ? & E). exists a, b. rewrite Z.add_0_l. unfold dLo, dHiChecked, ifthrow. rewrite (rd_ok _ _ _ E1), (rd_ok _ _ _ E2). cbn [bind]. replace (b <? a) with false by lia. split; [done|]. split; [done|]. split; [lia|]. done.
Qed.
End D.
Lemma packed_holds m cells : d_packed m cells -> d_holds m cells.
Proof.
  intros (H1 & H2 & H3 & conn & connI & E1 & E2 & Hs). split; [done|]. split; [done|]. split; [done|]. exists conn, connI, 0. split; [done|]. split; [done|]. destruct Hs as [Hc Hps]. pose proof (zlen_nonneg conn).
  split; [rewrite (proj1 Hps), !zlen_fmap; done|]. split; [|split; [|lia]].
  - intros i c Hi. apply (sky_pack (snd <$> cells)); [split; done|]. assert ((snd <$> cells) @ i = Some c.2) as ->; [|done]. rewrite zlook_fmap. unfold cell in Hi. rewrite Hi. done.
  - rewrite (proj2 Hps 0); [done|]. pose proof (zlen_nonneg (zlen <$> (snd <$> cells))). lia.
Qed.
Lemma d_data m cells : d_holds m cells -> exists conn connI, dg_conn m = Some conn /\ dg_connI m = Some connI /\ zlen connI = zlen cells + 1 /\ (forall i c, cells @ i = Some c -> pack conn connI i c.2) /\
  D_getNumberOfCells m = Ok (zlen cells) /\ (forall A (k : list Z -> list Z -> res A), D_checkConsistencyOfConnectivity m k = k conn connI) /\ (forall A (k : list Z -> list Z -> res A), D_unchecked m k = k conn connI) /\
  bounded conn (dLo connI) (dHi connI) 0 cells /\ bounded conn (dLo connI) (dHiChecked connI) 0 cells /\ nondecreasing connI.
Proof.
  intros (_ & _ & _ & conn & connI & f & E1 & E2 & Hl & Hp & H0 & Hf & Hf2). exists conn, connI. split; [done|]. split; [done|]. split; [done|]. split; [done|]. split; [by apply (d_num m cells conn connI f)|].
  split; [intros A k; by apply (d_check m cells conn connI f)|]. split; [intros A k; by apply (d_get m cells conn connI f)|]. split; [by apply (d_bounded m cells conn connI f)|]. split; [by apply (d_boundedC m cells conn connI f)|]. by apply (d_mono m cells conn connI f).
Qed.
