(** Transfer between two distributions: order of the elements, buckets, partial sums. *)
From stdpp Require Import sorting.
From Coq Require Import ZifyBool ZifyNat.
From Verif Require Import Base SearchSpec IndexSpec FillLib StrModel StrSpec BlkModel BlkSpec BlkProofs BlkProofs2 BlkProofs3 DecModel OverProofs3.

(** ** Local numbers increase with global ones. *)
Lemma row_mono bx : forall dims pos pos', in_box bx pos -> in_box bx pos' -> in_grid dims pos -> in_grid dims pos' ->
  row_id (box_dims bx) (zip_with (fun x r => x - fst r) pos bx) < row_id (box_dims bx) (zip_with (fun x r => x - fst r) pos' bx) -> row_id dims pos < row_id dims pos'.
Proof.
  induction bx as [|r bx IH]; intros dims pos pos' B B' G G' H.
  - inversion B; subst. inversion B'; subst. cbn in H. lia.
  - inversion B as [|? x ? xs Hx Bx]; subst. inversion B' as [|? x' ? xs' Hx' Bx']; subst. inversion G as [|d ? ds ? Hd Gd]; subst. inversion G' as [|? ? ? ? Hd' Gd']; subst.
    cbn [box_dims fmap list_fmap zip_with row_id] in *. fold (box_dims bx) in H.
    assert (R1 := row_range _ _ (offs_in bx xs Bx)). assert (R2 := row_range _ _ (offs_in bx xs' Bx')). unfold offs in R1, R2. change ((fun r : Z * Z => r.2 - r.1) <$> bx) with (box_dims bx) in *.
    assert (S1 := row_range _ _ Gd). assert (S2 := row_range _ _ Gd').
    destruct (Z.lt_trichotomy x x') as [Hlt|[->|Hgt]]; [nia| |nia]. apply Z.add_lt_mono_l. apply IH; [done..|]. lia.
Qed.
Definition glob (t : topo) (p l : Z) : Z := match localToGlobal t p (p, l) with Ok x => x | _ => 0 end.
Definition own (t : topo) (x : Z) : Z := match globalToLocal t x with Ok (p, _) => p | _ => -1 end.
Definition cnt (t : topo) (p : Z) : Z := match getNbLocalElements t p with Ok n => n | _ => 0 end.
Section Facts.
Context (t : topo) (g : list Z) (D : distributed t g).
Lemma cnt_ok p : 0 <= p < zlen g -> getNbLocalElements t p = Ok (cnt t p) /\ 0 <= cnt t p.
Proof using D.
  intros Hp. destruct (getNbLocal_ok t g p D Hp) as (bx & Hbx & E). unfold cnt. rewrite E. split; [done|]. destruct Hbx as (bs & Hbb & _). apply bb_box in Hbb; [|apply D].
  clear -Hbb. revert Hbb. generalize (axis_len <$> t_idx t) as l. induction bx as [|r bx IH]; intros l H; [done|]. inversion H as [|? ? ? ? Hr Hb]; subst. apply IH in Hb. cbn. change ((fun r : Z * Z => r.2 - r.1) <$> bx) with (box_dims bx). nia.
Qed.
Lemma glob_ok p l : 0 <= p < zlen g -> 0 <= l < cnt t p -> localToGlobal t p (p, l) = Ok (glob t p l) /\ 0 <= glob t p l < t_nb t /\ globalToLocal t (glob t p l) = Ok (p, l).
Proof using D. intros Hp Hl. destruct (cnt_ok p Hp) as [E _]. destruct (round_trip_local t g p l (cnt t p) D Hp E Hl) as (x & H1 & H2 & H3). unfold glob. rewrite H1. done. Qed.
Lemma own_ok x : 0 <= x < t_nb t -> exists p l, globalToLocal t x = Ok (p, l) /\ 0 <= p < zlen g /\ 0 <= l < cnt t p /\ glob t p l = x /\ own t x = p.
Proof using D.
  intros Hx. destruct (round_trip t g x D Hx) as (p & l & n & H1 & H2 & H3 & H4 & H5). exists p, l. unfold cnt, glob, own. rewrite H3, H1, (H5 p H3). done.
Qed.
Lemma own_glob p l : 0 <= p < zlen g -> 0 <= l < cnt t p -> own t (glob t p l) = p.
Proof using D. intros Hp Hl. unfold own. destruct (glob_ok p l Hp Hl) as (_ & _ & ->). done. Qed.
Lemma glob_mono p l l' : 0 <= p < zlen g -> 0 <= l -> l < l' -> l' < cnt t p -> glob t p l < glob t p l'.
Proof using D.
  intros Hp H0 Hlt H1. destruct (getNbLocal_ok t g p D Hp) as (bx & Hbx & E). assert (Hc : cnt t p = grid_nb (box_dims bx)) by (unfold cnt; by rewrite E).
  destruct (holds_exists (t_idx t) p bx l) as (pos & Hh & Hg); [apply D|done|lia|]. destruct (holds_exists (t_idx t) p bx l') as (pos' & Hh' & Hg'); [apply D|done|lia|].
  unfold glob. rewrite (localToGlobal_ok t g pos p l p D Hh eq_refl), (localToGlobal_ok t g pos' p l' p D Hh' eq_refl).
  destruct Hh as (b1 & B1 & I1 & L1), Hh' as (b2 & B2 & I2 & L2). rewrite (box_of_fun _ _ _ _ B1 Hbx) in *. rewrite (box_of_fun _ _ _ _ B2 Hbx) in *. eapply row_mono; [exact I1|exact I2|done|done|]. lia.
Qed.
Lemma glob_mono_iff p l l' : 0 <= p < zlen g -> 0 <= l < cnt t p -> 0 <= l' < cnt t p -> l < l' <-> glob t p l < glob t p l'.
Proof using D.
  intros Hp H0 H1. split; [intros; apply glob_mono; lia|]. intros Hlt. destruct (Z.lt_trichotomy l l') as [?|[->|Hgt]]; [done|lia|]. apply (glob_mono p l' l Hp) in Hgt; lia.
Qed.
End Facts.

(** ** Counting. *)
Definition cb (K : Z -> Z) (q i : Z) : Z := zlen (filter (fun j => K j = q) (seqZ 0 i)).
Lemma seqZ_snoc i : 0 <= i -> seqZ 0 (i + 1) = seqZ 0 i ++ [i].
Proof. intros H. rewrite seqZ_app by lia. f_equal. Qed.
Lemma cb_S K q i : 0 <= i -> cb K q (i + 1) = cb K q i + if K i =? q then 1 else 0.
Proof.
  intros H. unfold cb. rewrite seqZ_snoc by done. rewrite filter_app, zlen_app. cbn. unfold filter. cbn. destruct (Z.eqb_spec (K i) q) as [E|E]; [rewrite decide_True by done|rewrite decide_False by done]; done.
Qed.
Lemma cb_0 K q : cb K q 0 = 0.
Proof. done. Qed.
Lemma cb_nonneg K q i : 0 <= cb K q i.
Proof. apply zlen_nonneg. Qed.
Lemma cb_mono K q i j : 0 <= i <= j -> cb K q i <= cb K q j.
Proof.
  intros [H0 H]. replace j with (i + (j - i)) by lia. assert (Hd : 0 <= j - i) by lia. revert Hd. generalize (j - i) as d. apply natlike_ind; [rewrite Z.add_0_r; lia|].
  intros d Hd IH. rewrite Z.add_succ_r, <- Z.add_1_r, cb_S by lia. destruct (K (i + d) =? q); lia.
Qed.
Lemma cb_lt K i j : 0 <= i < j -> cb K (K i) i < cb K (K i) j.
Proof. intros H. pose proof (cb_mono K (K i) (i + 1) j ltac:(lia)) as H1. rewrite cb_S, Z.eqb_refl in H1 by lia. lia. Qed.
Definition sizesOf (K : Z -> Z) (n m : Z) : list Z := (fun q => cb K q n) <$> seqZ 0 m.
Lemma sizesOf_look K n m q : 0 <= q < m -> sizesOf K n m @ q = Some (cb K q n).
Proof. intros H. unfold sizesOf. rewrite zlook_fmap, zlook_to_nat by lia. rewrite lookup_seqZ_lt by lia. cbn. f_equal. f_equal. lia. Qed.
Lemma sizesOf_len K n m : 0 <= m -> zlen (sizesOf K n m) = m.
Proof. intros H. unfold sizesOf. rewrite zlen_fmap. unfold zlen. rewrite seqZ_length. lia. Qed.
Lemma sizesOf_S K n m : 0 <= m -> sizesOf K n (m + 1) = sizesOf K n m ++ [cb K m n].
Proof. intros H. unfold sizesOf. by rewrite seqZ_snoc, fmap_app. Qed.
(** The sizes of the buckets sum to the number of elements. *)
Lemma sizes_sum K n m : 0 <= n -> 0 <= m -> (forall i, 0 <= i < n -> 0 <= K i < m) -> zsum (sizesOf K n m) = n.
Proof.
  intros Hn Hm HK. revert Hn HK. revert n. apply (natlike_ind (fun n => (forall i, 0 <= i < n -> 0 <= K i < m) -> zsum (sizesOf K n m) = n)).
  - intros _. revert Hm. revert m. apply natlike_ind; [done|]. intros m Hm IH. rewrite <- Z.add_1_r, sizesOf_S, zsum_snoc, IH by done. done.
  - intros n Hn IH HK. rewrite <- (IH ltac:(intros; apply HK; lia)) at 2. specialize (HK n ltac:(lia)). rewrite <- !Z.add_1_r.
    enough (G : zsum (sizesOf K (n + 1) m) = zsum (sizesOf K n m) + if K n <? m then 1 else 0) by (rewrite G; by replace (K n <? m) with true by lia).
    assert (H0 : 0 <= K n) by lia. clear IH HK. revert Hm. revert m. apply natlike_ind; [replace (K n <? 0) with false by lia; done|].
    intros m Hm IH. rewrite <- Z.add_1_r, !sizesOf_S, !zsum_snoc, IH, cb_S by done. destruct (Z.eqb_spec (K n) m), (Z.ltb_spec (K n) m), (Z.ltb_spec (K n) (m + 1)); lia.
Qed.
Definition st (K : Z -> Z) (n q : Z) : Z := zsum (sizesOf K n q).
Lemma st_S K n q : 0 <= q -> st K n (q + 1) = st K n q + cb K q n.
Proof. intros H. unfold st. by rewrite sizesOf_S, zsum_snoc. Qed.
Lemma st_mono K n q q' : 0 <= q < q' -> st K n q + cb K q n <= st K n q'.
Proof.
  intros [H0 H]. rewrite <- st_S by done. replace q' with (q + 1 + (q' - (q + 1))) by lia. assert (Hd : 0 <= q' - (q + 1)) by lia. revert Hd. generalize (q' - (q + 1)) as d. apply natlike_ind; [rewrite Z.add_0_r; lia|].
  intros d Hd IH. rewrite Z.add_succ_r, <- Z.add_1_r, (st_S K n (q + 1 + d)) by lia. pose proof (cb_nonneg K (q + 1 + d) n). lia.
Qed.
Lemma take_sizes K n m q : 0 <= q <= m -> take (Z.to_nat q) (sizesOf K n m) = sizesOf K n q.
Proof.
  intros H. unfold sizesOf. rewrite <- fmap_take. f_equal. replace m with (q + (m - q)) by lia. rewrite seqZ_app by lia. apply take_app_alt. rewrite seqZ_length. lia.
Qed.
(** Places in a buffer. *)
Definition place (K : Z -> Z) (n i : Z) : Z := st K n (K i) + cb K (K i) i.
Lemma place_range K n m i : 0 <= i < n -> (forall i, 0 <= i < n -> 0 <= K i < m) -> 0 <= place K n i < n.
Proof.
  intros Hi HK. pose proof (HK i Hi) as Hk. unfold place. pose proof (cb_lt K i n Hi) as H1. pose proof (cb_nonneg K (K i) i). pose proof (sizes_sum K n m ltac:(lia) ltac:(lia) HK) as Hs.
  pose proof (st_mono K n (K i) m ltac:(lia)) as H2. unfold st in H2 at 2. rewrite Hs in H2. split; [|lia]. assert (0 <= st K n (K i)); [|lia]. unfold st. apply zsum_nonneg. intros v Hv. unfold sizesOf in Hv. apply elem_of_list_fmap in Hv as (q & -> & _). apply cb_nonneg.
Qed.
Lemma place_inj K n m i j : 0 <= i < n -> 0 <= j < n -> (forall i, 0 <= i < n -> 0 <= K i < m) -> place K n i = place K n j -> i = j.
Proof.
  intros Hi Hj HK E. unfold place in E. pose proof (HK i Hi). pose proof (HK j Hj). pose proof (cb_lt K i n Hi). pose proof (cb_lt K j n Hj). pose proof (cb_nonneg K (K i) i). pose proof (cb_nonneg K (K j) j).
  destruct (Z.lt_trichotomy (K i) (K j)) as [Hlt|[Heq|Hgt]].
  - pose proof (st_mono K n (K i) (K j)). lia.
  - rewrite Heq in E. destruct (Z.lt_trichotomy i j) as [U3|[?|U3]]; [|done|].
    + pose proof (cb_lt K i j ltac:(lia)) as U4. rewrite Heq in U4. lia.
    + pose proof (cb_lt K j i ltac:(lia)) as U4. lia.
  - pose proof (st_mono K n (K j) (K i)). lia.
Qed.

(** ** The loops. *)
Lemma starts_ok n l : 0 < n -> n <= zlen l + 1 -> exists r, starts n l = Ok r /\ zlen r = n /\ forall q, 0 <= q < n -> r @ q = Some (zsum (take (Z.to_nat q) l)).
Proof.
  intros Hn Hl. enough (W : wp (starts n l) (fun r => zlen r = n /\ forall q, 0 <= q < n -> r @ q = Some (zsum (take (Z.to_nat q) l))) False) by (destruct (starts n l) as [r| | |]; cbn [wp] in W; [by exists r|done..]).
  unfold starts. replace (n <=? 0) with false by lia. cbn [ubif]. eapply (wp_forZ (fun i r => zlen r = i /\ forall q, 0 <= q < i -> r @ q = Some (zsum (take (Z.to_nat q) l)))); [lia| | |].
  - split; [done|]. intros q Hq. assert (q = 0) as -> by lia. done.
  - intros i r Hi [H1 H2]. apply wp_bind. rewrite (rd_ok _ _ _ (H2 (i - 1) ltac:(lia))). cbn [wp]. apply wp_bind, wp_rd; [lia|]. intros c Hc. cbn [wp]. split; [rewrite zlen_app, H1; done|]. intros q Hq.
    destruct (decide (q < i)); [rewrite zlook_app_l by lia; apply H2; lia|]. assert (q = zlen r) as -> by lia. rewrite zlook_snoc. f_equal. rewrite H1. rewrite <- (zsum_take_succ l (i - 1) c Hc). do 3 f_equal. lia.
  - intros r [H1 H2]. done.
Qed.
Lemma unionCounts_ok N g sizes : 0 <= N -> increasing g -> (forall w, w ∈ g -> 0 <= w < N) -> zlen sizes = zlen g ->
  exists c, unionCounts N g sizes = Ok c /\ zlen c = N /\ (forall i w, g @ i = Some w -> c @ w = sizes @ i) /\ forall w, 0 <= w < N -> w ∉ g -> c @ w = Some 0.
Proof.
  intros HN Hinc Hg Hs.
  enough (W : wp (unionCounts N g sizes) (fun c => zlen c = N /\ (forall i w, g @ i = Some w -> c @ w = sizes @ i) /\ forall w, 0 <= w < N -> w ∉ g -> c @ w = Some 0) False) by (destruct (unionCounts N g sizes) as [r| | |]; cbn [wp] in W; [by exists r|done..]).
  unfold unionCounts. eapply (wp_forZ (fun k c => zlen c = N /\ (forall i w, i < k -> g @ i = Some w -> c @ w = sizes @ i) /\ forall w, 0 <= w < N -> w ∉ g -> c @ w = Some 0)); [apply zlen_nonneg| | |].
  - assert (L : zlen (replicate (Z.to_nat N) 0) = N) by (unfold zlen; rewrite replicate_length; lia). split; [done|]. split; [intros i w Hi Hw; apply zlook_Some_lt in Hw; lia|]. intros w Hw _. rewrite zlook_to_nat by lia. apply lookup_replicate. lia.
  - intros k c Hk (H1 & H2 & H3). apply wp_bind, wp_rd; [lia|]. intros w Hw. apply wp_bind, wp_rd; [lia|]. intros s Hsk. assert (Hin : w ∈ g) by (apply elem_of_zlook; eauto). pose proof (Hg w Hin) as Hwr. apply wp_wr; [lia|]. split; [by rewrite zlen_zset|]. split.
    + intros i w' Hi Hw'. rewrite zlook_zset by lia. destruct (Z.eqb_spec w' w) as [->|Hne].
      * destruct (Z.lt_trichotomy i k) as [Hlt|[->|?]]; [specialize (Hinc _ _ _ _ Hlt Hw' Hw); lia|done|lia].
      * destruct (decide (i = k)) as [->|]; [congruence|]. apply H2; [lia|done].
    + intros w' Hw' Hn. rewrite zlook_zset by lia. destruct (Z.eqb_spec w' w) as [->|]; [done|auto].
  - intros c (H1 & H2 & H3). split; [done|]. split; [|done]. intros i w Hw. apply H2; [apply zlook_Some_lt in Hw; lia|done].
Qed.
(** Displacements by ranks in the world and in the group agree. *)
Lemma take_succ_sum (l : list Z) i v : l @ i = Some v -> zsum (take (Z.to_nat (i + 1)) l) = zsum (take (Z.to_nat i) l) + v.
Proof. apply zsum_take_succ. Qed.
Lemma displs_agree N g sizes c : increasing g -> (forall w, w ∈ g -> 0 <= w < N) -> zlen sizes = zlen g -> zlen c = N -> (forall i w, g @ i = Some w -> c @ w = sizes @ i) -> (forall w, 0 <= w < N -> w ∉ g -> c @ w = Some 0) ->
  forall q w, g @ q = Some w -> zsum (take (Z.to_nat w) c) = zsum (take (Z.to_nat q) sizes).
Proof.
  intros Hinc Hg Hs Hc H1 H2.
  assert (G : forall w, 0 <= w -> w <= N -> exists q, 0 <= q <= zlen g /\ (forall i x, i < q -> g @ i = Some x -> x < w) /\ (forall i x, q <= i -> g @ i = Some x -> w <= x) /\ zsum (take (Z.to_nat w) c) = zsum (take (Z.to_nat q) sizes)).
  { refine (natlike_ind _ _ _).
    - intros _. exists 0. pose proof (zlen_nonneg g). split; [lia|]. split; [intros i x Hi Hx; apply zlook_Some_lt in Hx; lia|]. split; [|done]. intros i x _ Hx. assert (x ∈ g) by (apply elem_of_zlook; eauto). by apply Hg.
    - intros w Hw IH Hle. destruct (IH ltac:(lia)) as (q & Q0 & Q1 & Q2 & Q3). rewrite <- Z.add_1_r. destruct (decide (w ∈ g)) as [Hin|Hni].
      + apply elem_of_zlook in Hin as (k & Hk). pose proof (zlook_Some_lt _ _ _ Hk) as Hkr. assert (k = q) as ->.
        { destruct (Z.lt_trichotomy k q) as [Hlt|[?|Hgt]]; [specialize (Q1 _ _ Hlt Hk); lia|done|]. destruct (zlook_lt g q) as [y Hy]; [lia|]. pose proof (Hinc _ _ _ _ Hgt Hy Hk). specialize (Q2 q y ltac:(lia) Hy). lia. }
        exists (q + 1). split; [lia|]. split; [|split].
        * intros i x Hi Hx. destruct (decide (i = q)) as [->|]; [assert (x = w) by congruence; lia|]. specialize (Q1 i x ltac:(lia) Hx). lia.
        * intros i x Hi Hx. pose proof (Hinc q i w x ltac:(lia) Hk Hx). lia.
        * destruct (zlook_lt sizes q) as [v Hv]; [lia|]. rewrite (take_succ_sum c w v) by (by rewrite (H1 q w Hk)). rewrite (take_succ_sum sizes q v Hv). lia.
      + exists q. split; [done|]. split; [|split].
        * intros i x Hi Hx. specialize (Q1 _ _ Hi Hx). lia.
        * intros i x Hi Hx. specialize (Q2 _ _ Hi Hx). assert (x <> w); [|lia]. intros ->. apply Hni, elem_of_zlook. eauto.
        * rewrite (take_succ_sum c w 0) by (apply H2; [lia|done]). lia. }
  intros q w Hq. assert (Hin : w ∈ g) by (apply elem_of_zlook; eauto). apply Hg in Hin. destruct (G w) as (q' & Q0 & Q1 & Q2 & ->); [lia..|]. do 3 f_equal.
  pose proof (zlook_Some_lt _ _ _ Hq). destruct (Z.lt_trichotomy q q') as [Hlt|[?|Hgt]]; [specialize (Q1 _ _ Hlt Hq); lia|done|]. destruct (zlook_lt g q') as [y Hy]; [lia|]. specialize (Q2 q' y ltac:(lia) Hy). pose proof (Hinc _ _ _ _ Hgt Hy Hq). lia.
Qed.
