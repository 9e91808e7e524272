From Coq Require Import QArith ZifyBool ZifyNat.
From stdpp Require Import gmap.
From Verif Require Import Base DataArray ArrLib FillLib IndexSpec IndexProofs4 SkySpec SkyProofs SkyProofs4 CellTable UmModel UmSpec UmProofs UmProofs2 UmProofs3.
Local Open Scope Z_scope.

(** * Nodes in use *)
Definition hit (l : list (Z * Z)) (k : Z) : Prop := 0 <= k /\ exists i, (i, k) ∈ l.
Lemma hit_app l p k : hit (l ++ [p]) k <-> hit l k \/ 0 <= k /\ p.2 = k.
Proof.
  unfold hit. setoid_rewrite elem_of_app. setoid_rewrite elem_of_list_singleton. split.
  - intros (H & i & [Hi|Hi]); [left; eauto|right; subst p; done].
  - intros [(H & i & Hi)|[H Hp]]; split; try done; [exists i; by left|]. exists p.1. right. subst k. by destruct p.
Qed.
Lemma mark_ok {A} (x : A) (n : Z) l (s : list A) : zlen s = n ->
  wp (foldM (fun s (p : Z * Z) => if 0 <=? p.2 then (if p.2 <? n then wr s p.2 x else Throw) else Ok s) l s)
    (fun r => zlen r = n /\ (forall k, hit l k -> k < n /\ r @ k = Some x) /\ (forall k, ~ hit l k -> r @ k = s @ k))
    (exists k, hit l k /\ n <= k).
Proof.
  intros Hs. apply (wp_foldM _ (fun pre r => zlen r = n /\ (forall k, hit pre k -> k < n /\ r @ k = Some x) /\ (forall k, ~ hit pre k -> r @ k = s @ k))).
  - split; [done|]. split; [intros k (_ & i & Hi); by apply elem_of_nil in Hi|done].
  - intros pre p post r -> (Hr & Hh & Hk). destruct (0 <=? p.2) eqn:E0; [destruct (p.2 <? n) eqn:E1|].
    + rewrite wr_ok by lia. cbn [wp]. rewrite zlen_zset. split; [done|]. split; intros k; rewrite hit_app, zlook_zset by lia; destruct (Z.eqb_spec k p.2) as [->|Hne].
      * intros _. split; [lia|done].
      * intros [H|[_ H]]; [auto|congruence].
      * intros H. exfalso. apply H. right. split; [lia|done].
      * intros H. apply Hk. tauto.
    + cbn [wp]. exists p.2. split; [|lia]. split; [lia|]. exists p.1. rewrite <- surjective_pairing. apply elem_of_app. right. left.
    + cbn [wp]. split; [done|]. split; intros k; rewrite hit_app; [intros [H|[H1 H2]]; [auto|lia]|]. intros H. apply Hk. tauto.
  - done.
Qed.
Lemma hit_used cells k : hit (occ 0 cells) k <-> used cells k.
Proof. unfold hit. split; [intros [H1 H2]; by apply (occ_used cells k H1)|]. intros H. split; [apply H|]. apply occ_used; [apply H|done]. Qed.
Lemma alg_wp m cells s : stores m cells -> wp (computeNodeIdsAlg m s)
  (fun r => zlen r = zlen s /\ (forall k, used cells k -> k < zlen s /\ r @ k = Some true) /\ (forall k, ~ used cells k -> r @ k = s @ k)) (exists k, used cells k /\ zlen s <= k).
Proof.
  intros H. unfold computeNodeIdsAlg. rewrite (numCells_ok _ _ H). cbn [bind]. destruct (stores_get _ _ H) as (conn & connI & H1 & H2 & H3 & H4). unfold unchecked. rewrite H1, H2. rewrite (below_ok cells _ _ _ _ H3).
  eapply wp_mono; [apply (mark_ok true (zlen s) (occ 0 cells) s eq_refl)|..].
  - intros r (Hl & Ha & Hb). split; [done|]. split; [intros k Hk; apply Ha; by apply hit_used|]. intros k Hk. apply Hb. by rewrite hit_used.
  - intros (k & Hk & Hn). exists k. split; [by apply hit_used|done].
Qed.
Lemma used_dec cells k : Decision (used cells k).
Proof.
  destruct (decide (0 <= k)) as [H|H]; [|right; intros [? _]; lia]. destruct (decide (Exists (fun c : cell => k ∈ c.2) cells)) as [E|E].
  - left. apply Exists_exists in E. split; [done|]. destruct E as (c & Hc & Hk). eauto.
  - right. intros (_ & c & Hc & Hk). apply E, Exists_exists. eauto.
Qed.
Lemma alg_ok m cells s : stores m cells -> (forall k, used cells k -> k < zlen s) ->
  exists r, computeNodeIdsAlg m s = Ok r /\ zlen r = zlen s /\ (forall k, used cells k -> r @ k = Some true) /\ (forall k, ~ used cells k -> r @ k = s @ k).
Proof.
  intros H Hu. pose proof (alg_wp m cells s H) as W. destruct (computeNodeIdsAlg m s) as [r| | |]; cbn in W; try done.
  - destruct W as (H1 & H2 & H3). exists r. split; [done|]. split; [done|]. split; [|done]. intros k Hk. apply H2. done.
  - destruct W as (k & Hk & Hn). exfalso. specialize (Hu k Hk). lia.
Qed.
Lemma switchedOn_elem k v x : x ∈ switchedOn k v <-> k <= x /\ v @ (x - k) = Some true.
Proof.
  revert k. induction v as [|b v IH]; intros k; cbn [switchedOn].
  - rewrite elem_of_nil, zlook_nil. split; [done|]. intros [_ H]. done.
  - rewrite zlook_cons. destruct b; rewrite ?elem_of_cons, IH; destruct (Z.eqb_spec (x - k) 0); replace (x - k - 1) with (x - (k + 1)) by lia.
    + split; [intros _; split; [lia|done]|intros _; left; lia].
    + split; [intros [->|[H1 H2]]; [lia|split; [lia|done]]|]. intros [H1 H2]. right. split; [lia|done].
    + split; [lia|]. intros [_ H]. done.
    + split; [intros [H1 H2]; split; [lia|done]|]. intros [H1 H2]. apply zlook_Some_lt in H2 as ?. split; [lia|done].
Qed.
Lemma switchedOn_asc k v : ascending (switchedOn k v).
Proof.
  revert k. induction v as [|b v IH]; intros k; cbn [switchedOn]; [done|]. destruct b; [|apply IH]. cbn [ascending]. split; [|apply IH]. intros y Hy. apply switchedOn_elem in Hy. lia.
Qed.
Lemma max_elem x r v : v ∈ x :: r -> v <= foldr Z.max x r.
Proof.
  induction r as [|y r IH]; cbn [foldr]; intros H; [apply elem_of_list_singleton in H; lia|]. apply elem_of_cons in H as [->|H]; [specialize (IH (elem_of_list_here _ _)); lia|].
  apply elem_of_cons in H as [->|H]; [lia|]. specialize (IH (elem_of_list_further _ _ _ H)). lia.
Qed.
Lemma conn_elem cells conn connI (c : cell) v : skyline (pk <$> cells) conn connI -> c ∈ cells -> v ∈ c.2 -> v ∈ conn.
Proof. intros [-> _] Hc Hv. apply elem_of_list_In, in_concat. exists (pk c). split; apply elem_of_list_In; [apply elem_of_list_fmap; eauto|by right]. Qed.
Lemma fetched_ok m cells : stores m cells -> exists l, computeFetchedNodeIds m = Ok l /\ ascending l /\ forall n, n ∈ l <-> used cells n.
Proof.
  intros H. destruct (stores_get _ _ H) as (conn & connI & H1 & H2 & H3 & H4). unfold computeFetchedNodeIds, checkConnectivityFullyDefined. rewrite H1, H2.
  set (mx := match conn with [] => 0 | x :: r => Z.abs (foldr Z.max x r) + 1 end). assert (0 <= mx) by (unfold mx; destruct conn; lia).
  destruct (alg_ok m cells (replicate (Z.to_nat mx) false) H) as (r & -> & Hl & Hu & Hn).
  { intros k (Hk & c & Hc & Hv). rewrite zlen_replicate. pose proof (conn_elem _ _ _ _ _ H3 Hc Hv) as Hin. unfold mx in *. destruct conn as [|x r]; [by apply elem_of_nil in Hin|]. apply max_elem in Hin. lia. }
  cbn [bind]. eexists. split; [done|]. split; [apply switchedOn_asc|]. intros n. rewrite switchedOn_elem, Z.sub_0_r. split.
  - intros [Hn0 Ht]. destruct (used_dec cells n) as [Hd|Hd]; [done|]. exfalso. rewrite Hn in Ht by done. apply zlook_elem, elem_of_replicate in Ht as [? _]. done.
  - intros Hd. split; [apply Hd|]. auto.
Qed.
Lemma allFetched_ok m cells nb : stores m cells -> has_nodes m nb -> (forall k, used cells k -> k < nb) -> exists b, areAllNodesFetched m = Ok b /\ (b = true <-> forall n, 0 <= n < nb -> used cells n).
Proof.
  intros H (d & Hd & Hda & Hdw & Hnb) Hu. destruct (stores_get _ _ H) as (conn & connI & H1 & H2 & H3 & H4). unfold areAllNodesFetched, checkFullyDefined. rewrite H1, H2, Hd. unfold getNumberOfNodes. rewrite Hd, Hnb. cbn [bind].
  destruct (da_wf_len d Hdw) as (_ & Hnb0 & _). rewrite Hnb in Hnb0.
  destruct (alg_ok m cells (replicate (Z.to_nat nb) false) H) as (r & -> & Hl & Hus & Hn). { intros k Hk. rewrite zlen_replicate. specialize (Hu k Hk). lia. }
  rewrite zlen_replicate in Hl. cbn [bind]. eexists. split; [done|]. rewrite forallb_elem. split.
  - intros Hall n Hr. destruct (used_dec cells n) as [Hd'|Hd']; [done|]. exfalso. specialize (Hn n Hd'). rewrite zlook_replicate in Hn by lia. specialize (Hall false (zlook_elem _ _ _ Hn)). done.
  - intros Hall x Hx. apply elem_of_zlook in Hx as [i Hi]. apply zlook_Some_lt in Hi as ?. rewrite Hus in Hi by (apply Hall; lia). injection Hi as <-. done.
Qed.
(** The numbering of the nodes in use. *)
Definition kept (l : list Z) : list Z := List.filter (fun j => match l @ j with Some v => negb (v =? -1) | None => false end) (seqZ 0 (zlen l)).
Lemma kept_app l l' : kept (l ++ l') = kept l ++ List.filter (fun j => match (l ++ l') @ j with Some v => negb (v =? -1) | None => false end) (seqZ (zlen l) (zlen l')).
Proof.
  unfold kept. pose proof (zlen_nonneg l). pose proof (zlen_nonneg l'). rewrite zlen_app. rewrite seqZ_app by lia. rewrite Z.add_0_l. rewrite List.filter_app. f_equal. apply filter_ext_in. intros j Hj. apply elem_of_list_In, elem_of_seqZ in Hj. rewrite zlook_app_l by lia. done.
Qed.
Lemma kept_snoc l v : zlen (kept (l ++ [v])) = zlen (kept l) + if v =? -1 then 0 else 1.
Proof.
  rewrite kept_app. change (zlen [v]) with 1. rewrite seqZ_cons by lia. change (seqZ (Z.succ (zlen l)) (Z.pred 1)) with (@nil Z). cbn [List.filter]. rewrite zlook_snoc, zlen_app. destruct (v =? -1); done.
Qed.
Lemma accVisit_app k l l' : accVisit k (l ++ l') = accVisit k l ++ accVisit (k + zlen (kept l)) l'.
Proof.
  revert l'. induction l as [|v l IH] using rev_ind; intros l'; [cbn [app accVisit]; change (zlen (kept [])) with 0; rewrite Z.add_0_r; done|].
  rewrite <- app_assoc, !IH, kept_snoc. cbn [app accVisit]. destruct (v =? -1); cbn [negb]; rewrite <- app_assoc; cbn [app]; do 3 f_equal; lia.
Qed.
Lemma accVisit_len k l : zlen (accVisit k l) = zlen l.
Proof. revert k. induction l as [|v l IH]; intros k; [done|]. cbn [accVisit]. destruct (negb _); rewrite !zlen_cons, IH; done. Qed.
Lemma accVisit_look l i v : l @ i = Some v -> accVisit 0 l @ i = Some (if v =? -1 then -1 else zlen (kept (take (Z.to_nat i) l))).
Proof.
  intros H. apply zlook_Some_lt in H as Hi. assert (E : l = take (Z.to_nat i) l ++ v :: drop (S (Z.to_nat i)) l). { symmetry. apply take_drop_middle. rewrite <- zlook_to_nat by lia. done. }
  rewrite E at 1. rewrite accVisit_app. assert (Hl : zlen (take (Z.to_nat i) l) = i) by (rewrite zlen_take; lia). rewrite zlook_app_r by (rewrite accVisit_len; lia). rewrite accVisit_len, Hl, Z.sub_diag. cbn [accVisit]. destruct (v =? -1); done.
Qed.
Lemma kept_take l i : 0 <= i <= zlen l -> NoDup (kept (take (Z.to_nat i) l)) /\ forall x, x ∈ kept (take (Z.to_nat i) l) <-> 0 <= x < i /\ exists v, l @ x = Some v /\ v <> -1.
Proof.
  intros Hi. unfold kept. rewrite zlen_take. replace (Z.min (Z.of_nat (Z.to_nat i)) (zlen l)) with i by lia. split.
  - apply NoDup_ListNoDup, List.NoDup_filter, NoDup_ListNoDup, NoDup_seqZ.
  - intros x. rewrite elem_of_list_In, filter_In, <- elem_of_list_In, elem_of_seqZ. split.
    + intros [Hx Hv]. split; [lia|]. rewrite zlook_take in Hv by lia. destruct (l @ x) as [v|]; [|done]. exists v. split; [done|lia].
    + intros [Hx (v & Hv & Hn)]. split; [lia|]. rewrite zlook_take by lia. rewrite Hv. lia.
Qed.
Lemma filter1_kept l : (forall v, v ∈ l -> v = 1 \/ v = -1) -> zlen (List.filter (fun v => v =? 1) l) = zlen (kept l).
Proof.
  induction l as [|v l IH] using rev_ind; intros H; [done|]. rewrite kept_snoc, List.filter_app, zlen_app, IH by (intros; apply H, elem_of_app; by left). f_equal. cbn [List.filter].
  destruct (H v) as [->| ->]; [apply elem_of_app; right; left|done|done].
Qed.
Lemma inUse_wp m cells nb : stores m cells -> has_nodes m nb ->
  wp (getNodeIdsInUse m) (fun r => zlen r.1 = nb /\ (forall n, used cells n -> n < nb) /\ rank_in cells nb r.2 /\
    forall n, 0 <= n < nb -> (used cells n -> exists k, rank_in cells n k /\ r.1 @ n = Some k) /\ (~ used cells n -> r.1 @ n = Some (-1))) (exists n, used cells n /\ nb <= n).
Proof.
  intros H (d & Hd & Hda & Hdw & Hnb). destruct (stores_get _ _ H) as (conn & connI & H1 & H2 & H3 & H4). unfold getNodeIdsInUse, getNumberOfNodes. rewrite Hd, Hnb, (numCells_ok _ _ H). cbn [bind]. unfold unchecked. rewrite H1, H2. rewrite (below_ok cells _ _ _ _ H3).
  destruct (da_wf_len d Hdw) as (_ & Hnb0 & _). rewrite Hnb in Hnb0. apply wp_bind. eapply wp_mono; [apply (mark_ok 1 nb (occ 0 cells)); rewrite zlen_replicate; lia|..].
  2:{ intros (k & Hk & Hn). exists k. split; [by apply hit_used|done]. }
  intros tr (Hl & Ha & Hb). cbn [wp fst snd].
  assert (Hu : forall n, used cells n -> n < nb /\ tr @ n = Some 1) by (intros n Hn; apply Ha, hit_used, Hn).
  assert (Hn : forall n, 0 <= n < nb -> ~ used cells n -> tr @ n = Some (-1)). { intros n Hr Hn. rewrite Hb by (by rewrite hit_used). rewrite zlook_replicate by lia. done. }
  assert (R : forall n, 0 <= n <= nb -> rank_in cells n (zlen (kept (take (Z.to_nat n) tr)))).
  { intros n Hr. destruct (kept_take tr n) as [K1 K2]; [lia|]. exists (kept (take (Z.to_nat n) tr)). split; [done|]. split; [|done]. intros x. rewrite K2. split.
    - intros [Hx (v & Hv & Hv1)]. split; [|lia]. destruct (used_dec cells x) as [|Hd']; [done|]. rewrite Hn in Hv by (done || lia). congruence.
    - intros [Hx1 Hx2]. split; [destruct Hx1; lia|]. exists 1. split; [by apply Hu|lia]. }
  split; [rewrite accVisit_len; done|]. split; [intros n Hx; by apply Hu|]. split.
  - rewrite filter1_kept. { specialize (R nb ltac:(lia)). rewrite take_ge in R by (unfold zlen in Hl; lia). done. }
    intros v Hv. apply elem_of_zlook in Hv as [i Hi]. apply zlook_Some_lt in Hi as ?. destruct (used_dec cells i) as [Hd'|Hd']; [rewrite (proj2 (Hu i Hd')) in Hi|rewrite Hn in Hi by (done || lia)]; injection Hi as <-; tauto.
  - intros n Hr. split; intros Hx.
    + exists (zlen (kept (take (Z.to_nat n) tr))). split; [apply R; lia|]. rewrite (accVisit_look tr n 1) by (by apply Hu). done.
    + rewrite (accVisit_look tr n (-1)) by (by apply Hn). done.
Qed.
