From Coq Require Import QArith ZifyBool ZifyNat.
From stdpp Require Import gmap.
From Verif Require Import CellModel Base DataArray ArrLib FillLib SearchSpec SearchModel SearchProofs IndexSpec IndexModel IndexProofs IndexProofs2 IndexProofs4 SkySpec SkyModel SkyProofs SkyProofs4 CellTable CellProofs5 DsProofs6 GlModel UmModel UmSpec UmProofs UmProofs2 UmProofs3 UmProofs4 UmProofs8 UmProofs9 MgSpec GtModel GtSpec GtProofs.
Local Open Scope Z_scope.

(** * One cell *)
Lemma s_cell m cells i c : s_holds m cells -> cells @ i = Some c -> S_getNodeIdsOfCell m i = Ok c.2.
Proof.
  intros H Hc. apply zlook_Some_lt in Hc as ?. unfold S_getNodeIdsOfCell, S_unchecked, ifthrow. rewrite (s_perCell m cells H), (s_num m cells H), (s_conn m cells H). cbn [bind]. replace (_ <=? i) with false by lia.
  destruct (concat_at cells _ i c (s_len m cells H) Hc) as (? & ? & ? & E). rewrite span_list by lia. by rewrite <- E.
Qed.
Lemma s_cell_beyond m cells i : s_holds m cells -> zlen cells <= i -> S_getNodeIdsOfCell m i = Throw.
Proof. intros H Hi. unfold S_getNodeIdsOfCell, ifthrow. rewrite (s_perCell m cells H), (s_num m cells H). cbn [bind]. replace (_ <=? i) with true by lia. done. Qed.
Lemma s_cell_neg m cells i : s_holds m cells -> i < 0 -> S_getNodeIdsOfCell m i = UB.
Proof.
  intros H Hi. pose proof (s_k m cells H). pose proof (zlen_nonneg cells). unfold S_getNodeIdsOfCell, S_unchecked, ifthrow. rewrite (s_perCell m cells H), (s_num m cells H), (s_conn m cells H). cbn [bind]. replace (_ <=? i) with false by lia.
  rewrite forZ_step by nia. unfold rd. rewrite zlook_neg by nia. done.
Qed.
Lemma d_cell m cells i c : d_holds m cells -> cells @ i = Some c -> D_getNodeIdsOfCell m i = Ok c.2.
Proof.
  intros (_ & _ & _ & conn & connI & f & E1 & E2 & Hl & Hp & H0 & Hf & Hf2) Hc. apply zlook_Some_lt in Hc as ?. unfold D_getNodeIdsOfCell, D_unchecked, ifthrow. rewrite (d_num m cells conn connI f) by done. cbn [bind]. replace (_ <=? i) with false by lia. rewrite E1, E2.
  destruct (Hp i c Hc) as (a & b & Ea & Eb & ? & ? & ? & E). rewrite (rd_ok _ _ _ Ea), (rd_ok _ _ _ Eb). cbn [bind]. replace (b - a <? 0) with false by lia. rewrite span_list by lia. by rewrite <- E.
Qed.
Lemma d_cell_beyond m cells i : d_holds m cells -> zlen cells <= i -> D_getNodeIdsOfCell m i = Throw.
Proof. intros (_ & _ & _ & conn & connI & f & E1 & E2 & Hl & Hp & H0 & Hf & Hf2) Hi. unfold D_getNodeIdsOfCell, ifthrow. rewrite (d_num m cells conn connI f) by done. cbn [bind]. replace (_ <=? i) with true by lia. done. Qed.
Lemma d_cell_neg m cells i : d_holds m cells -> i < 0 -> D_getNodeIdsOfCell m i = UB.
Proof. intros (_ & _ & _ & conn & connI & f & E1 & E2 & Hl & Hp & H0 & Hf & Hf2) Hi. pose proof (zlen_nonneg cells). unfold D_getNodeIdsOfCell, D_unchecked, ifthrow. rewrite (d_num m cells conn connI f) by done. cbn [bind]. replace (_ <=? i) with false by lia. rewrite E1, E2. unfold rd. rewrite zlook_neg by lia. done. Qed.
(** Number of nodes without the separators. *)
Lemma countSep_ok conn a b : 0 <= a <= b -> b <= zlen conn -> countSep conn a b = Ok (zlen (sub conn a b) - zlen (List.filter (fun v => negb (v =? -1)) (sub conn a b))).
Proof.
  intros H1 H2. destruct (sub_split conn a b H1 H2) as (P & R & E & HP & Hl). unfold countSep, ubif. replace (b <? a) with false by lia. pose proof (nbsep P (sub conn a b) R) as G. rewrite <- E, HP, Hl in G. replace (a + (b - a)) with b in G by lia. rewrite G. f_equal. lia.
Qed.
Lemma d_nodesIn m cells i c : d_holds m cells -> cells @ i = Some c -> D_getNumberOfNodesInCell m i = Ok (zlen (List.filter (fun v => negb (v =? -1)) c.2)).
Proof.
  intros (_ & _ & _ & conn & connI & f & E1 & E2 & Hl & Hp & H0 & Hf & Hf2) Hc. apply zlook_Some_lt in Hc as ?. unfold D_getNumberOfNodesInCell, D_unchecked, ifthrow. rewrite (d_num m cells conn connI f) by done. cbn [bind]. replace (negb _) with false by lia. rewrite E1, E2.
  destruct (Hp i c Hc) as (a & b & Ea & Eb & ? & ? & ? & E). rewrite (rd_ok _ _ _ Ea), (rd_ok _ _ _ Eb). cbn [bind]. rewrite countSep_ok by lia. cbn [bind]. f_equal. rewrite <- E. pose proof (f_equal zlen E) as El. unfold sub in El. rewrite zlen_take, zlen_drop in El. lia.
Qed.
Lemma d_nodesIn_throw m cells i : d_holds m cells -> ~ 0 <= i < zlen cells -> D_getNumberOfNodesInCell m i = Throw.
Proof. intros (_ & _ & _ & conn & connI & f & E1 & E2 & Hl & Hp & H0 & Hf & Hf2) Hi. unfold D_getNumberOfNodesInCell, ifthrow. rewrite (d_num m cells conn connI f) by done. cbn [bind]. replace (negb _) with true by lia. done. Qed.

(** * Marks of the nodes *)
Definition okv (sep : bool) (nb v : Z) : Prop := sep = true /\ v = -1 \/ 0 <= v < nb.
Lemma okv_dec sep nb v : {okv sep nb v} + {~ okv sep nb v}.
Proof. unfold okv. destruct sep; destruct (decide (v = -1)), (decide (0 <= v < nb)); try (left; tauto); right; intros [[? ?]|?]; done. Qed.
Lemma mark2_ok {A} (sep : bool) (x : A) (n : Z) l (s : list A) (body : list A -> Z * Z -> res (list A)) : zlen s = n ->
  (forall r p, p ∈ l -> zlen r = n -> body r p = if sep && (p.2 =? -1) then Ok r else if (0 <=? p.2) && (p.2 <? n) then wr r p.2 x else Throw) ->
  wp (foldM body l s)
    (fun r => (forall p, p ∈ l -> okv sep n p.2) /\ zlen r = n /\ (forall k, hit l k -> r @ k = Some x) /\ (forall k, ~ hit l k -> r @ k = s @ k))
    (exists p, p ∈ l /\ ~ okv sep n p.2).
Proof.
  intros Hs Hb. apply (wp_foldM _ (fun pre r => (forall p, p ∈ pre -> okv sep n p.2) /\ zlen r = n /\ (forall k, hit pre k -> r @ k = Some x) /\ (forall k, ~ hit pre k -> r @ k = s @ k))).
  - split; [intros p Hp; by apply elem_of_nil in Hp|]. split; [done|]. split; [intros k (_ & i & Hi); by apply elem_of_nil in Hi|done].
  - intros pre p post r E (Ho & Hr & Hh & Hk). rewrite Hb; [|rewrite E; apply elem_of_app; right; left|done]. destruct (sep && (p.2 =? -1)) eqn:E1; [|destruct ((0 <=? p.2) && (p.2 <? n)) eqn:E0].
    + cbn [wp]. split; [intros q [Hq|Hq%elem_of_list_singleton]%elem_of_app; [by apply Ho|subst; left; destruct sep; [split; [done|lia]|done]]|]. split; [done|]. split; intros k; rewrite hit_app; [intros [H|[H1 H2]]; [auto|lia]|]. intros H. apply Hk. tauto.
    + rewrite wr_ok by lia. cbn [wp]. split; [intros q [Hq|Hq%elem_of_list_singleton]%elem_of_app; [by apply Ho|subst; right; lia]|]. rewrite zlen_zset. split; [done|]. split; intros k; rewrite hit_app, zlook_zset by lia; destruct (Z.eqb_spec k p.2) as [->|Hne].
      * intros _. done.
      * intros [H|[_ H]]; [auto|congruence].
      * intros H. exfalso. apply H. right. split; [lia|done].
      * intros H. apply Hk. tauto.
    + cbn [wp]. exists p. split; [rewrite E; apply elem_of_app; right; left|]. intros [[-> ?]|?]; lia.
  - done.
Qed.
Lemma occ_all (P : Z -> Prop) (cells : list cell) : (forall p, p ∈ occ 0 cells -> P p.2) <-> (forall c v, c ∈ cells -> v ∈ c.2 -> P v).
Proof.
  split.
  - intros H c v Hc Hv. apply elem_of_zlook in Hc as [i Hi]. apply (H (i, v)). apply occ_elem. exists c. rewrite Z.sub_0_r. done.
  - intros H [i v] Hp. apply occ_elem in Hp as (c & Hc & Hv). cbn. eapply H; [by eapply zlook_elem|done].
Qed.
Lemma occ_bad (P : Z -> Prop) (cells : list cell) : (exists p, p ∈ occ 0 cells /\ ~ P p.2) -> ~ (forall c v, c ∈ cells -> v ∈ c.2 -> P v).
Proof. intros (p & Hp & Hn) H. apply Hn. by apply (proj2 (occ_all P cells)). Qed.
Lemma in_use_ok cells nb tr : 0 <= nb -> zlen tr = nb -> (forall n, used cells n -> n < nb /\ tr @ n = Some 1) -> (forall n, 0 <= n < nb -> ~ used cells n -> tr @ n = Some (-1)) ->
  in_use cells nb (accVisit 0 tr, zlen (List.filter (fun v => v =? 1) tr)).
Proof.
  intros Hnb0 Hl Hu Hn. assert (R : forall n, 0 <= n <= nb -> rank_in cells n (zlen (kept (take (Z.to_nat n) tr)))).
  { intros n Hr. destruct (kept_take tr n) as [K1 K2]; [lia|]. exists (kept (take (Z.to_nat n) tr)). split; [done|]. split; [|done]. intros x. rewrite K2. split.
    - intros [Hx (v & Hv & Hv1)]. split; [|lia]. destruct (used_dec cells x) as [|Hd']; [done|]. rewrite Hn in Hv by (done || lia). congruence.
    - intros [Hx1 Hx2]. split; [destruct Hx1; lia|]. exists 1. split; [by apply Hu|lia]. }
  unfold in_use. cbn [fst snd]. split; [rewrite accVisit_len; done|]. split.
  - rewrite filter1_kept. { specialize (R nb ltac:(lia)). rewrite take_ge in R by (unfold zlen in Hl; lia). done. }
    intros v Hv. apply elem_of_zlook in Hv as [i Hi]. apply zlook_Some_lt in Hi as ?. destruct (used_dec cells i) as [Hd'|Hd']; [rewrite (proj2 (Hu i Hd')) in Hi|rewrite Hn in Hi by (done || lia)]; injection Hi as <-; tauto.
  - intros n Hr. split; intros Hx.
    + exists (zlen (kept (take (Z.to_nat n) tr))). split; [apply R; lia|]. rewrite (accVisit_look tr n 1) by (by apply Hu). done.
    + rewrite (accVisit_look tr n (-1)) by (by apply Hn). done.
Qed.
Lemma marked_in_use sep cells nb (tr : list Z) : 0 <= nb -> (forall p, p ∈ occ 0 cells -> okv sep nb p.2) -> zlen tr = nb -> (forall k, hit (occ 0 cells) k -> tr @ k = Some 1) -> (forall k, ~ hit (occ 0 cells) k -> tr @ k = replicate (Z.to_nat nb) (-1) @ k) ->
  in_use cells nb (accVisit 0 tr, zlen (List.filter (fun v => v =? 1) tr)).
Proof.
  intros H0 Ho Hl Ha Hb. apply in_use_ok; [done|done| |].
  - intros n Hn. split; [|apply Ha, hit_used, Hn]. apply hit_used in Hn as (Hn0 & i & Hi). apply Ho in Hi. cbn in Hi. destruct Hi as [[_ ?]|?]; lia.
  - intros n Hn Hx. rewrite Hb by (by rewrite hit_used). rewrite zlook_replicate by lia. done.
Qed.
Lemma coords_nb d nb : coords_of d nb -> nodesOfArr d = Ok nb /\ 0 <= nb.
Proof. intros (a & -> & Ha & Hw & Hn). destruct (da_wf_len a Hw) as (_ & H & _). split; [cbn; by rewrite Hn|lia]. Qed.
Lemma within_okv nb cells : within nb cells <-> forall c v, c ∈ cells -> v ∈ c.2 -> okv false nb v.
Proof. unfold within, okv. split; intros H c v Hc Hv; specialize (H c v Hc Hv); [by right|]. destruct H as [[? _]|?]; done. Qed.
Lemma sep_okv nb cells : within_sep nb cells <-> forall c v, c ∈ cells -> v ∈ c.2 -> okv true nb v.
Proof. unfold within_sep, okv. split; intros H c v Hc Hv; specialize (H c v Hc Hv); tauto. Qed.
Lemma s_inUse m cells nb : s_holds m cells -> coords_of (sg_coords m) nb -> wp (S_getNodeIdsInUse m) (fun r => within nb cells /\ in_use cells nb r) (~ within nb cells).
Proof.
  intros H Hd. destruct (coords_nb _ _ Hd) as [Hnb Hnb0]. unfold S_getNodeIdsInUse, S_unchecked. rewrite Hnb, (s_num m cells H), (s_perCell m cells H), (s_conn m cells H). cbn [bind]. rewrite (nodesIn_ok _ _ _ cells) by (by apply s_bounded).
  apply wp_bind. eapply wp_mono; [apply (mark2_ok false 1 nb)|..].
  - rewrite zlen_replicate. lia.
  - intros r p _ Hr. done.
  - intros tr (Ho & Hl & Ha & Hb). cbn [wp]. split; [apply within_okv, occ_all, Ho|]. by apply (marked_in_use false).
  - intros Hbad Hw. by apply (occ_bad _ _ Hbad), within_okv.
Qed.
Lemma d_inUse m cells nb : d_holds m cells -> coords_of (dg_coords m) nb -> wp (D_getNodeIdsInUse m) (fun r => within_sep nb cells /\ in_use cells nb r) (~ within_sep nb cells).
Proof.
  intros H Hd. destruct (d_data m cells H) as (conn & connI & _ & _ & _ & _ & En & _ & Eu & Hb1 & _ & _). destruct (coords_nb _ _ Hd) as [Hnb Hnb0]. unfold D_getNodeIdsInUse. rewrite Hnb, En. cbn [bind]. rewrite Eu. rewrite (nodesIn_ok _ _ _ cells _ _ Hb1).
  apply wp_bind. eapply wp_mono; [apply (mark2_ok true 1 nb)|..].
  - rewrite zlen_replicate. lia.
  - intros r p _ Hr. done.
  - intros tr (Ho & Hl' & Ha & Hb). cbn [wp]. split; [apply sep_okv, occ_all, Ho|]. by apply (marked_in_use true).
  - intros Hbad Hw. by apply (occ_bad _ _ Hbad), sep_okv.
Qed.

(** * Consistency *)
Lemma fold_check {A} (ok : A -> bool) (l : list A) (body : unit -> A -> res unit) : (forall x, body tt x = if ok x then Ok tt else Throw) -> foldM body l tt = if forallb ok l then Ok tt else Throw.
Proof. intros Hb. induction l as [|x l IH]; [done|]. cbn [foldM forallb]. rewrite Hb. destruct (ok x); [cbn [bind andb]; exact IH|done]. Qed.
Lemma forallb_elem {A} (ok : A -> bool) (l : list A) : forallb ok l = true <-> forall x, x ∈ l -> ok x = true.
Proof. rewrite forallb_forall. split; intros H x Hx; apply H; by apply elem_of_list_In. Qed.
Lemma s_consistency m cells nb : s_holds m cells -> coords_of (sg_coords m) nb -> (within nb cells -> S_checkConsistency m = Ok tt) /\ (~ within nb cells -> S_checkConsistency m = Throw).
Proof.
  intros H (d & Hd & _ & _ & Hnb). assert (E : S_checkConsistency m = if forallb (fun p : Z * Z => (0 <=? p.2) && (p.2 <? nb)) (occ 0 cells) then Ok tt else Throw).
  { unfold S_checkConsistency, S_checkConsistencyOfConnectivity. rewrite Hd, (s_conn m cells H), (s_zlen m cells H). pose proof (s_k m cells H). set (k := cm_nbpts (sg_cm m)) in *. replace (k =? 0) with false by lia. unfold ubif, ifthrow. rewrite Z.rem_mul, Z.quot_mul by lia. cbn [negb Z.eqb].
    rewrite (nodesIn_ok _ _ _ cells) by (by apply s_bounded). apply fold_check. intros p. rewrite Hnb. destruct (p.2 <? 0) eqn:E1, (nb <=? p.2) eqn:E2; cbn [orb]; [replace (0 <=? p.2) with false by lia|replace (0 <=? p.2) with false by lia|replace (p.2 <? nb) with false by lia; rewrite andb_false_r|replace (0 <=? p.2) with true by lia; replace (p.2 <? nb) with true by lia]; done. }
  assert (G : forallb (fun p : Z * Z => (0 <=? p.2) && (p.2 <? nb)) (occ 0 cells) = true <-> within nb cells).
  { rewrite forallb_elem. rewrite (occ_all (fun v => (0 <=? v) && (v <? nb) = true)). unfold within. split; intros G c v Hc Hv; specialize (G c v Hc Hv); lia. }
  rewrite E. split; intros Hw; [apply G in Hw; by rewrite Hw|]. destruct (forallb _ _); [|done]. exfalso. by apply Hw, G.
Qed.
Lemma d_consistency m cells nb conn : d_holds m cells -> coords_of (dg_coords m) nb -> dg_conn m = Some conn -> forall A (K : res A), D_checkConsistency m K = if forallb (fun v => (v =? -1) || ((0 <=? v) && (v <? nb))) conn then K else Throw.
Proof.
  intros H (d & Hd & _ & _ & Hnb) Hc A K. destruct (d_data m cells H) as (conn' & connI & E1 & _ & _ & _ & En & Ec & Eu & Hb1 & _ & Hmo). assert (conn' = conn) as -> by congruence.
  unfold D_checkConsistency, D_checkConsistencyLight. rewrite Hd, Ec, (isMono_ok _ Hmo). cbn [bind negb]. unfold ifthrow at 1.
  rewrite (fold_check (fun v => (v =? -1) || ((0 <=? v) && (v <? nb)))); [destruct (forallb _ _); done|]. intros v. unfold ifthrow. rewrite Hnb. destruct (v =? -1) eqn:E0; [done|]. cbn [orb]. destruct (v <? 0) eqn:E3, (nb <=? v) eqn:E4; cbn [orb];
    [replace (0 <=? v) with false by lia|replace (0 <=? v) with false by lia|replace (v <? nb) with false by lia; rewrite andb_false_r|replace (0 <=? v) with true by lia; replace (v <? nb) with true by lia]; done.
Qed.
Lemma sub_elem {A} (l : list A) a b x : x ∈ sub l a b -> x ∈ l.
Proof. unfold sub. intros Hx. apply elem_of_list_lookup in Hx as [i Hi]. apply lookup_take_Some in Hi as [Hi _]. rewrite lookup_drop in Hi. by eapply elem_of_list_lookup_2. Qed.
Lemma conn_within m cells nb conn : d_holds m cells -> dg_conn m = Some conn -> forallb (fun v => (v =? -1) || ((0 <=? v) && (v <? nb))) conn = true -> within_sep nb cells.
Proof.
  intros H Hc G c v Hin Hv. destruct (d_data m cells H) as (conn' & connI & E1 & _ & _ & Hp & _). assert (conn' = conn) as -> by congruence. apply elem_of_zlook in Hin as [i Hi]. destruct (Hp i c Hi) as (a & b & _ & _ & _ & _ & _ & E).
  rewrite E in Hv. apply sub_elem in Hv. rewrite forallb_elem in G. apply G in Hv. lia.
Qed.
Lemma packed_conn m cells : d_packed m cells -> dg_conn m = Some (concat (snd <$> cells)).
Proof. intros (_ & _ & _ & conn & connI & -> & _ & [-> _]). done. Qed.
Lemma concat_elem2 (cells : list cell) v : v ∈ concat (snd <$> cells) <-> exists c, c ∈ cells /\ v ∈ c.2.
Proof.
  induction cells as [|c r IH]; [split; [intros H; by apply elem_of_nil in H|intros (c & Hc & _); by apply elem_of_nil in Hc]|]. rewrite fmap_cons. cbn [concat]. rewrite elem_of_app, IH. split.
  - intros [Hv|(d & Hd & Hv)]; [exists c; split; [left|done]|exists d; split; [by right|done]].
  - intros (d & [->|Hd]%elem_of_cons & Hv); [by left|]. right. eauto.
Qed.
Lemma packed_within (m : dgt) cells nb : forallb (fun v => (v =? -1) || ((0 <=? v) && (v <? nb))) (concat (snd <$> cells)) = true <-> within_sep nb cells.
Proof.
  rewrite forallb_elem. split.
  - intros G c v Hc Hv. specialize (G v ltac:(apply concat_elem2; eauto)). lia.
  - intros G v Hv. apply concat_elem2 in Hv as (c & Hc & Hv). specialize (G c v Hc Hv). lia.
Qed.
Lemma d_consistency_packed m cells nb : d_packed m cells -> coords_of (dg_coords m) nb -> (within_sep nb cells -> D_checkConsistency m (Ok tt) = Ok tt) /\ (~ within_sep nb cells -> D_checkConsistency m (Ok tt) = Throw).
Proof.
  intros H Hd. rewrite (d_consistency m cells nb _ (packed_holds _ _ H) Hd (packed_conn _ _ H)). split; intros Hw.
  - apply (packed_within m) in Hw. by rewrite Hw.
  - destruct (forallb _ _) eqn:E; [|done]. by apply (packed_within m) in E.
Qed.
Lemma d_consistency_any m cells nb : d_holds m cells -> coords_of (dg_coords m) nb -> D_checkConsistency m (Ok tt) = Ok tt -> within_sep nb cells.
Proof.
  intros H Hd. destruct (d_data m cells H) as (conn & connI & E1 & _). rewrite (d_consistency m cells nb conn H Hd E1). destruct (forallb _ _) eqn:E; [|done]. intros _. by eapply conn_within.
Qed.

(** * Nodes fetched *)
Lemma switched_ok cells nb (use : list bool) : 0 <= nb -> (forall k, used cells k -> k < nb) -> zlen use = nb -> (forall k, hit (occ 0 cells) k -> use @ k = Some true) -> (forall k, ~ hit (occ 0 cells) k -> use @ k = replicate (Z.to_nat nb) false @ k) ->
  ascending (switchedOn 0 use) /\ forall n, n ∈ switchedOn 0 use <-> used cells n.
Proof.
  intros H0 Hu Hl Ha Hb. split; [apply switchedOn_asc|]. intros n. rewrite switchedOn_elem, Z.sub_0_r. split.
  - intros [Hn E]. destruct (used_dec cells n) as [|Hx]; [done|]. rewrite Hb in E by (by rewrite hit_used). apply zlook_Some_lt in E as Hr. rewrite zlen_replicate in Hr. rewrite zlook_replicate in E by lia. done.
  - intros Hn. split; [apply Hn|]. apply Ha, hit_used, Hn.
Qed.
Lemma okv_used sep cells nb : (forall p, p ∈ occ 0 cells -> okv sep nb p.2) -> forall n, used cells n -> n < nb.
Proof. intros Ho n Hn. apply hit_used in Hn as (Hn0 & i & Hi). apply Ho in Hi. cbn in Hi. destruct Hi as [[_ ?]|?]; lia. Qed.
Lemma s_fetched m cells nb : s_holds m cells -> coords_of (sg_coords m) nb -> wp (S_computeFetchedNodeIds m) (fun l => within nb cells /\ ascending l /\ forall n, n ∈ l <-> used cells n) (~ within nb cells).
Proof.
  intros H Hd. destruct (coords_nb _ _ Hd) as [Hnb Hnb0]. unfold S_computeFetchedNodeIds, S_checkConsistencyOfConnectivity, S_computeNodeIdsAlg, S_unchecked. rewrite (s_conn m cells H), Hnb. cbn [bind].
  set (R := replicate (Z.to_nat nb) false). assert (HR : zlen R = nb) by (unfold R; rewrite zlen_replicate; lia). rewrite HR. rewrite (s_occ_fold m cells H (fun v use => if (0 <=? v) && (v <? nb) then wr use v true else Throw)).
  apply wp_bind. eapply wp_mono; [apply (mark2_ok false true nb); [done|]|..].
  - intros r p _ Hr. done.
  - intros use (Ho & Hl & Ha & Hb). cbn [wp]. split; [apply within_okv, occ_all, Ho|]. eapply (switched_ok cells nb); [done|by eapply okv_used|done..].
  - intros Hbad Hw. by apply (occ_bad _ _ Hbad), within_okv.
Qed.
Lemma p_occ_fold {St} cells (body : Z -> St -> res St) s : foldM (fun s v => body v s) (concat (snd <$> cells)) s = foldM (fun s (p : Z * Z) => body p.2 s) (occ 0 cells) s.
Proof.
  assert (E : forall z, concat (snd <$> cells) = snd <$> occ z cells). { induction cells as [|c r IH]; intros z; [done|]. rewrite fmap_cons. cbn [concat occ]. rewrite fmap_app, <- IH. f_equal. rewrite <- list_fmap_compose. clear. induction (c.2) as [|x l IHl]; [done|]. rewrite fmap_cons. rewrite <- IHl. done. }
  rewrite (E 0). generalize (occ 0 cells) s. clear. induction l as [|p l IH]; intros s; [done|]. rewrite fmap_cons. cbn [foldM]. destruct (body p.2 s); cbn [bind]; [apply IH|done..].
Qed.
Lemma d_fetched m cells nb : d_packed m cells -> coords_of (dg_coords m) nb -> wp (D_computeFetchedNodeIds m) (fun l => within_sep nb cells /\ ascending l /\ forall n, n ∈ l <-> used cells n) (~ within_sep nb cells).
Proof.
  intros Hpk Hd. pose proof (packed_holds _ _ Hpk) as H. pose proof (packed_conn _ _ Hpk) as Ecn. destruct (coords_nb _ _ Hd) as [Hnb Hnb0]. unfold D_computeFetchedNodeIds. rewrite (d_consistency m cells nb _ H Hd Ecn).
  destruct (forallb _ _) eqn:Eall.
  2:{ cbn [wp]. intros Hw. apply (packed_within m) in Hw. congruence. }
  rewrite Hnb. cbn [bind]. set (R := replicate (Z.to_nat nb) false). assert (HR : zlen R = nb) by (unfold R; rewrite zlen_replicate; lia). unfold D_computeNodeIdsAlg. rewrite (d_consistency m cells nb _ H Hd Ecn), Eall.
  destruct (d_data m cells H) as (conn & connI & E1 & _ & _ & _ & _ & _ & Eu & _). rewrite Eu. assert (conn = concat (snd <$> cells)) as -> by congruence. rewrite HR.
  rewrite (p_occ_fold cells (fun v use => if (0 <=? v) && (v <? nb) then wr use v true else if negb (v =? -1) then Throw else Ok use)).
  apply wp_bind. eapply wp_mono; [apply (mark2_ok true true nb); [done|]|..].
  - intros r p _ Hr. cbn [andb]. destruct (p.2 =? -1) eqn:E0; cbn [negb]; [replace (0 <=? p.2) with false by lia|]; done.
  - intros use (Ho & Hl & Ha & Hb). cbn [wp]. split; [apply sep_okv, occ_all, Ho|]. eapply (switched_ok cells nb); [done|by eapply okv_used|done..].
  - intros Hbad Hw. by apply (occ_bad _ _ Hbad), sep_okv.
Qed.
