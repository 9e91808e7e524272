(** Transfer between two distributions: what arrives. *)
From stdpp Require Import sorting.
From Coq Require Import ZifyBool ZifyNat.
From Verif Require Import Base SearchSpec IndexSpec FillLib StrModel StrSpec BlkModel BlkSpec BlkProofs BlkProofs2 BlkProofs3 DecModel OverProofs3 DecProofs.

Lemma wp_mo {A} (r : res A) (Q Q' : A -> Prop) (T : Prop) : (forall a, Q a -> Q' a) -> wp r Q T -> wp r Q' T.
Proof. intros H1 H2. by eapply wp_mono. Qed.
Lemma wp_collect {B} n (f : Z -> res B) (Q : Z -> B -> Prop) : 0 <= n -> (forall p, 0 <= p < n -> wp (f p) (Q p) False) -> wp (collect n f) (fun l => zlen l = n /\ forall p r, l @ p = Some r -> Q p r) False.
Proof.
  intros Hn Hf. unfold collect. eapply (wp_forZ (fun i l => zlen l = i /\ forall p r, l @ p = Some r -> Q p r)); [done| | |done].
  - split; [done|]. intros p r Hp. apply zlook_Some_lt in Hp. change (zlen (@nil B)) with 0 in Hp. lia.
  - intros i l Hi [H1 H2]. apply wp_bind. eapply wp_mo; [|by apply Hf]. intros r Hr. cbn [wp]. split; [rewrite zlen_app, H1; done|]. intros p r' Hp. destruct (decide (p = zlen l)) as [->|]; [rewrite zlook_snoc in Hp; injection Hp as <-; by rewrite H1|].
    apply H2. pose proof (zlook_Some_lt _ _ _ Hp) as Hx. rewrite zlen_app in Hx. change (zlen [r]) with 1 in Hx. by rewrite zlook_app_l in Hp by lia.
Qed.
Lemma copy_seg {A} (sb rb : list (option A)) c d d' : 0 <= c -> 0 <= d -> d + c <= zlen sb -> 0 <= d' -> d' + c <= zlen rb ->
  wp (forZ 0 c (fun k rb => let* v := rd sb (d + k) in wr rb (d' + k) v) rb) (fun r => zlen r = zlen rb /\ forall y, r @ y = if (d' <=? y) && (y <? d' + c) then sb @ (d + (y - d')) else rb @ y) False.
Proof.
  intros H0 H1 H2 H3 H4. eapply (wp_forZ (fun k r => zlen r = zlen rb /\ forall y, r @ y = if (d' <=? y) && (y <? d' + k) then sb @ (d + (y - d')) else rb @ y)); [done| | |done].
  - split; [done|]. intros y. by replace ((d' <=? y) && (y <? d' + 0)) with false by lia.
  - intros k r Hk [L1 L2]. apply wp_bind, wp_rd; [lia|]. intros v Hv. apply wp_wr; [lia|]. split; [by rewrite zlen_zset|]. intros y. rewrite zlook_zset by lia. destruct (Z.eqb_spec y (d' + k)) as [->|].
    + replace ((d' <=? d' + k) && (d' + k <? d' + (k + 1))) with true by lia. replace (d + (d' + k - d')) with (d + k) by lia. done.
    + rewrite L2. by replace ((d' <=? y) && (y <? d' + (k + 1))) with ((d' <=? y) && (y <? d' + k)) by lia.
Qed.
Lemma seqZ_SS i : 0 <= i -> StronglySorted Z.lt (seqZ 0 i).
Proof.
  revert i. refine (natlike_ind _ _ _); [constructor|]. intros i Hi IH. rewrite <- Z.add_1_r, seqZ_snoc by done. apply SSapp; [done|repeat constructor|]. intros x y Hx%elem_of_seqZ ->%elem_of_list_singleton. lia.
Qed.
Lemma omap_len {A B} (P : A -> Prop) `{!forall x, Decision (P x)} (f : A -> B) (l : list A) : length (omap (fun x => if decide (P x) then Some (f x) else None) l) = length (filter P l).
Proof. induction l as [|x l IH]; [done|]. change (omap (fun x0 => if decide (P x0) then Some (f x0) else None) (x :: l)) with (match (if decide (P x) then Some (f x) else None) with Some y => y :: omap (fun x0 => if decide (P x0) then Some (f x0) else None) l | None => omap (fun x0 => if decide (P x0) then Some (f x0) else None) l end). rewrite filter_cons. destruct (decide (P x)); cbn [length]; by rewrite ?IH. Qed.
Definition Kf (mine other : topo) (me : Z) : Z -> Z := fun i => own other (glob mine me i).
Section One.
Context (tS tT : topo) (gS gT : list Z) (DS : distributed tS gS) (DT : distributed tT gT) (Hnb : t_nb tS = t_nb tT).
Lemma partner_ok me i : 0 <= me < zlen gS -> 0 <= i < cnt tS me -> partner tS tT me i = Ok (Kf tS tT me i) /\ 0 <= Kf tS tT me i < zlen gT.
Proof using All.
  intros Hm Hi. destruct (glob_ok tS gS DS me i Hm Hi) as (E & Hx & _). unfold partner, Kf. rewrite E. cbn. rewrite Hnb in Hx. destruct (own_ok tT gT DT _ Hx) as (p & l & E2 & Hp & _ & _ & Ho). rewrite E2, Ho. done.
Qed.
Lemma sizes_ok me : 0 <= me < zlen gS -> partnerSizes tS tT me (cnt tS me) (zlen gT) = Ok (sizesOf (Kf tS tT me) (cnt tS me) (zlen gT)).
Proof using All.
  intros Hm. set (K := Kf tS tT me). set (m := zlen gT). assert (Hm0 : 0 <= m) by apply zlen_nonneg. destruct (cnt_ok tS gS DS me Hm) as [_ Hc].
  enough (W : wp (partnerSizes tS tT me (cnt tS me) m) (fun s => s = sizesOf K (cnt tS me) m) False) by (destruct (partnerSizes _ _ _ _ _); cbn [wp] in W; [by subst|done..]).
  unfold partnerSizes. eapply (wp_forZ (fun i s => s = sizesOf K i m)); [done| | |].
  - apply zlook_ext_lt; [rewrite sizesOf_len by done; unfold zlen; rewrite replicate_length; lia|]. intros q Hq. unfold zlen in Hq at 1. rewrite replicate_length in Hq. rewrite sizesOf_look by lia. rewrite zlook_to_nat by lia. apply lookup_replicate. split; [done|lia].
  - intros i s Hi ->. destruct (partner_ok me i Hm Hi) as [E Hr]. rewrite E. cbn. fold K in Hr |- *. apply wp_bind. rewrite (rd_ok _ _ _ (sizesOf_look K i m (K i) Hr)). cbn [wp]. apply wp_wr; [rewrite sizesOf_len; lia|].
    apply zlook_ext_lt; [rewrite zlen_zset, !sizesOf_len; lia|]. intros q Hq. rewrite zlen_zset, sizesOf_len in Hq by lia. rewrite zlook_zset by (rewrite sizesOf_len; lia). rewrite !sizesOf_look by lia. rewrite cb_S by lia.
    destruct (Z.eqb_spec q (K i)) as [->|]; [by rewrite Z.eqb_refl|]. replace (K i =? q) with false by lia. f_equal. lia.
  - intros s ->. done.
Qed.
End One.

Section Two.
Context (tS tT : topo) (gS gT : list Z) (DS : distributed tS gS) (DT : distributed tT gT) (Hnb : t_nb tS = t_nb tT).
(** As many elements go from a process to another as this one awaits, in the same order. *)
Lemma eqcount p q i l X : 0 <= p < zlen gS -> 0 <= q < zlen gT -> 0 <= i <= cnt tS p -> 0 <= l <= cnt tT q ->
  (forall j, 0 <= j < cnt tS p -> j < i <-> glob tS p j < X) -> (forall j, 0 <= j < cnt tT q -> j < l <-> glob tT q j < X) -> cb (Kf tS tT p) q i = cb (Kf tT tS q) p l.
Proof using All.
  intros Hp Hq Hi Hl Hi2 Hl2. unfold cb, zlen. f_equal. rewrite <- (omap_len (fun j => Kf tS tT p j = q) (glob tS p)), <- (omap_len (fun j => Kf tT tS q j = p) (glob tT q)). f_equal.
  apply (SSuniq (fun x => x)).
  - apply (SSomap Z.lt); [|apply seqZ_SS; lia]. intros x y a b Hx%elem_of_seqZ Hy%elem_of_seqZ Hlt E1 E2. destruct (decide _); [|done]. destruct (decide _); [|done]. injection E1 as <-. injection E2 as <-. eapply glob_mono; [done|done|lia|done|lia].
  - apply (SSomap Z.lt); [|apply seqZ_SS; lia]. intros x y a b Hx%elem_of_seqZ Hy%elem_of_seqZ Hlt E1 E2. destruct (decide _); [|done]. destruct (decide _); [|done]. injection E1 as <-. injection E2 as <-. eapply glob_mono; [done|done|lia|done|lia].
  - intros x. rewrite !elem_of_list_omap. split.
    + intros (j & Hj%elem_of_seqZ & E). destruct (decide _) as [Hk|]; [|done]. injection E as <-. unfold Kf in Hk. destruct (glob_ok tS gS DS p j Hp ltac:(lia)) as (_ & Hr & _). rewrite Hnb in Hr. destruct (own_ok tT gT DT _ Hr) as (q' & m & _ & _ & Hm & Hg & Ho). rewrite Hk in Ho. subst q'.
      exists m. split; [apply elem_of_seqZ; assert (Hx : j < i) by lia; rewrite (Hi2 j ltac:(lia)), <- Hg in Hx; apply Hl2 in Hx; lia|]. unfold Kf. rewrite Hg, (own_glob tS gS DS p j Hp) by lia. by rewrite decide_True.
    + intros (j & Hj%elem_of_seqZ & E). destruct (decide _) as [Hk|]; [|done]. injection E as <-. unfold Kf in Hk. destruct (glob_ok tT gT DT q j Hq ltac:(lia)) as (_ & Hr & _). rewrite <- Hnb in Hr. destruct (own_ok tS gS DS _ Hr) as (q' & m & _ & _ & Hm & Hg & Ho). rewrite Hk in Ho. subst q'.
      exists m. split; [apply elem_of_seqZ; assert (Hx : j < l) by lia; rewrite (Hl2 j ltac:(lia)), <- Hg in Hx; apply Hi2 in Hx; lia|]. unfold Kf. rewrite Hg, (own_glob tT gT DT q j Hq) by lia. by rewrite decide_True.
Qed.
Lemma eqtotal p q : 0 <= p < zlen gS -> 0 <= q < zlen gT -> cb (Kf tS tT p) q (cnt tS p) = cb (Kf tT tS q) p (cnt tT q).
Proof using All.
  intros Hp Hq. apply (eqcount p q _ _ (t_nb tS)); [done|done|pose proof (cnt_ok tS gS DS p Hp); lia|pose proof (cnt_ok tT gT DT q Hq); lia|..].
  - intros j Hj. pose proof (glob_ok tS gS DS p j Hp Hj). lia.
  - intros j Hj. pose proof (glob_ok tT gT DT q j Hq Hj). lia.
Qed.
End Two.

Section Run.
Context {A : Type} (N : Z) (tS tT : topo) (gS gT : list Z) (DS : distributed tS gS) (DT : distributed tT gT) (Hnb : t_nb tS = t_nb tT).
Context (IS : increasing gS) (IT : increasing gT) (HN : 4 <= N) (RS : forall w, w ∈ gS -> 0 <= w < N) (RT : forall w, w ∈ gT -> 0 <= w < N).
Lemma group_pos (t : topo) g : distributed t g -> 0 < zlen g.
Proof. intros D. rewrite (d_size _ _ D). pose proof (blocks_pos _ (d_cuts _ _ D)) as H. induction H as [|x l Hx Hl IH]; [done|]. cbn. lia. Qed.
(** What process [p] of the source has prepared. *)
Definition ready (p : Z) (v : list A) (r : list Z * list Z * list (option A)) : Prop :=
  zlen r.1.1 = N /\ zlen r.1.2 = N /\ zlen r.2 = cnt tS p /\
  (forall q w, gT @ q = Some w -> r.1.1 @ w = Some (cb (Kf tS tT p) q (cnt tS p)) /\ r.1.2 @ w = Some (st (Kf tS tT p) (cnt tS p) q)) /\
  (forall j, 0 <= j < cnt tS p -> exists x, v @ j = Some x /\ r.2 @ (place (Kf tS tT p) (cnt tS p) j) = Some (Some x)).
Lemma prepareSource_ok p v : 0 <= p < zlen gS -> cnt tS p <= zlen v -> wp (prepareSource N tS tT p v) (ready p v) False.
Proof using All.
  intros Hp Hv. set (K := Kf tS tT p). set (nb := cnt tS p). destruct (cnt_ok tS gS DS p Hp) as [Enb Hnb0]. fold nb in Enb, Hnb0. assert (HK : forall i, 0 <= i < nb -> 0 <= K i < zlen gT) by (intros i Hi; by apply (partner_ok tS tT gS gT DS DT Hnb)).
  pose proof (group_pos tT gT DT) as HgT. unfold prepareSource, group. rewrite (d_group _ _ DT). rewrite Enb. cbn. pose proof (sizes_ok tS tT gS gT DS DT Hnb p Hp) as Esz. fold K nb in Esz. rewrite Esz. cbn.
  destruct (unionCounts_ok N gT (sizesOf K nb (zlen gT))) as (c & Ec & C1 & C2 & C3); [lia|done|done|rewrite sizesOf_len; lia|]. rewrite Ec. cbn.
  destruct (starts_ok N c) as (d & Ed & D1 & D2); [lia|lia|]. rewrite Ed. cbn.
  destruct (starts_ok (zlen gT) (sizesOf K nb (zlen gT))) as (cn & Ecn & E1 & E2); [lia|rewrite sizesOf_len; lia|]. rewrite Ecn. cbn. apply wp_bind.
  eapply (wp_forZ (fun i '(buf, cnt_) => zlen buf = nb /\ zlen cnt_ = zlen gT /\ (forall q, 0 <= q < zlen gT -> cnt_ @ q = Some (st K nb q + cb K q i)) /\ forall j, 0 <= j < i -> exists x, v @ j = Some x /\ buf @ (place K nb j) = Some (Some x))); [done| | |].
  - split; [unfold zlen; rewrite replicate_length; lia|]. split; [done|]. split; [|intros j Hj; lia]. intros q Hq. rewrite E2 by done. rewrite take_sizes by lia. rewrite cb_0. f_equal. unfold st. lia.
  - intros i [buf cn'] Hi (H1 & H2 & H3 & H4). destruct (partner_ok tS tT gS gT DS DT Hnb p i Hp Hi) as [Epa Hr]. rewrite Epa. cbn. fold K in Hr |- *. apply wp_bind. rewrite (rd_ok _ _ _ (H3 _ Hr)). cbn [wp]. fold (place K nb i).
    apply wp_bind, wp_rd; [lia|]. intros x Hx. pose proof (place_range K nb (zlen gT) i Hi HK) as Hpl. apply wp_bind, wp_wrc; [lia|]. apply wp_bind, wp_wr; [lia|]. cbn [wp]. split; [by rewrite zlen_zset|]. split; [by rewrite zlen_zset|]. split.
    + intros q Hq. rewrite zlook_zset by lia. rewrite cb_S by lia. destruct (Z.eqb_spec q (K i)) as [->|]; [rewrite Z.eqb_refl; unfold place; f_equal; lia|]. replace (K i =? q) with false by lia. rewrite H3 by done. f_equal. lia.
    + intros j Hj. rewrite zlook_zset by lia. destruct (decide (j = i)) as [->|Hne]; [exists x; by rewrite Z.eqb_refl|]. destruct (H4 j ltac:(lia)) as (y & Hy & Hb). exists y. split; [done|].
      destruct (Z.eqb_spec (place K nb j) (place K nb i)) as [E|]; [|done]. apply (place_inj K nb (zlen gT)) in E; [done|lia|lia|done].
  - intros [buf cn'] (H1 & H2 & H3 & H4). cbn [wp]. split; [done|]. split; [done|]. split; [done|]. split; [|done]. cbn [fst snd]. intros q w Hq. pose proof (zlook_Some_lt _ _ _ Hq) as Hqr. rewrite (C2 q w Hq), sizesOf_look by done. split; [done|].
    assert (Hw : 0 <= w < N) by (apply RT, elem_of_zlook; eauto). rewrite D2 by done. f_equal. rewrite (displs_agree N gT (sizesOf K nb (zlen gT)) c IT RT ltac:(rewrite sizesOf_len; lia) C1 C2 C3 q w Hq). rewrite take_sizes by lia. done.
Qed.
Definition awaits (q : Z) (r : Z * list Z * list Z) : Prop :=
  r.1.1 = cnt tT q /\ zlen r.1.2 = N /\ zlen r.2 = N /\
  (forall p w, gS @ p = Some w -> r.1.2 @ w = Some (cb (Kf tT tS q) p (cnt tT q)) /\ r.2 @ w = Some (st (Kf tT tS q) (cnt tT q) p)) /\
  (forall w, 0 <= w < N -> w ∉ gS -> r.1.2 @ w = Some 0).
Lemma prepareTarget_ok q : 0 <= q < zlen gT -> wp (prepareTarget N tS tT q) (awaits q) False.
Proof using All.
  intros Hp. set (K := Kf tT tS q). set (nb := cnt tT q). destruct (cnt_ok tT gT DT q Hp) as [Enb Hnb0]. fold nb in Enb, Hnb0. assert (Hnb' : t_nb tT = t_nb tS) by done. assert (HK : forall i, 0 <= i < nb -> 0 <= K i < zlen gS) by (intros i Hi; by apply (partner_ok tT tS gT gS DT DS Hnb')).
  pose proof (group_pos tS gS DS) as HgT. unfold prepareTarget, group. rewrite (d_group _ _ DS). rewrite Enb. cbn. pose proof (sizes_ok tT tS gT gS DT DS Hnb' q Hp) as Esz. fold K nb in Esz. rewrite Esz. cbn.
  destruct (unionCounts_ok N gS (sizesOf K nb (zlen gS))) as (c & Ec & C1 & C2 & C3); [lia|done|done|rewrite sizesOf_len; lia|]. rewrite Ec. cbn.
  destruct (starts_ok N c) as (d & Ed & D1 & D2); [lia|lia|]. rewrite Ed. cbn. split; [done|]. split; [done|]. split; [done|]. split; [|done]. cbn [fst snd].
  intros p w Hq. pose proof (zlook_Some_lt _ _ _ Hq) as Hqr. rewrite (C2 p w Hq), sizesOf_look by done. split; [done|].
  assert (Hw : 0 <= w < N) by (apply RS, elem_of_zlook; eauto). rewrite D2 by done. f_equal. rewrite (displs_agree N gS (sizesOf K nb (zlen gS)) c IS RS ltac:(rewrite sizesOf_len; lia) C1 C2 C3 p w Hq). rewrite take_sizes by lia. done.
Qed.
Lemma bounds (K : Z -> Z) n m q : 0 <= n -> (forall i, 0 <= i < n -> 0 <= K i < m) -> 0 <= q < m -> 0 <= st K n q /\ st K n q + cb K q n <= n.
Proof.
  intros Hn HK Hq. split; [unfold st; apply zsum_nonneg; intros v Hv; unfold sizesOf in Hv; apply elem_of_list_fmap in Hv as (x & -> & _); apply cb_nonneg|].
  pose proof (st_mono K n q m ltac:(lia)) as H. unfold st in H at 2. rewrite (sizes_sum K n m) in H by (done || lia). done.
Qed.
Context (svals : list (list A)) (HS : zlen svals = zlen gS) (HSl : forall p v, svals @ p = Some v -> cnt tS p <= zlen v).
Definition atPost (senders : list (list Z * list Z * list (option A))) : Prop :=
  zlen senders = N /\ (forall p w, gS @ p = Some w -> exists v r, svals @ p = Some v /\ senders @ w = Some r /\ ready p v r) /\
  forall w, 0 <= w < N -> w ∉ gS -> senders @ w = Some (replicate (Z.to_nat N) 0, replicate (Z.to_nat N) 0, []).
Lemma allToAllV_ok q w senders r : gT @ q = Some w -> atPost senders -> awaits q r ->
  wp (allToAllV N w senders r.1.1 r.1.2 r.2) (fun rb => zlen rb = cnt tT q /\ forall p wp_ v s k, gS @ p = Some wp_ -> svals @ p = Some v -> senders @ wp_ = Some s -> 0 <= k < cb (Kf tT tS q) p (cnt tT q) -> rb @ (st (Kf tT tS q) (cnt tT q) p + k) = s.2 @ (st (Kf tS tT p) (cnt tS p) q + k)) False.
Proof using All.
  intros Hq (P1 & P2 & P3) (A1 & A2 & A3 & A4 & A5). pose proof (zlook_Some_lt _ _ _ Hq) as Hqr. assert (Hw : 0 <= w < N) by (apply RT, elem_of_zlook; eauto). destruct (cnt_ok tT gT DT q Hqr) as [_ Hc]. rewrite A1.
  assert (HK : forall i, 0 <= i < cnt tT q -> 0 <= Kf tT tS q i < zlen gS) by (intros i Hi; by apply (partner_ok tT tS gT gS DT DS ltac:(done))).
  unfold allToAllV.
  eapply (wp_forZ (fun i rb => zlen rb = cnt tT q /\ forall p wp_ v s k, wp_ < i -> gS @ p = Some wp_ -> svals @ p = Some v -> senders @ wp_ = Some s -> 0 <= k < cb (Kf tT tS q) p (cnt tT q) -> rb @ (st (Kf tT tS q) (cnt tT q) p + k) = s.2 @ (st (Kf tS tT p) (cnt tS p) q + k))); [lia| | |].
  - split; [unfold zlen; rewrite replicate_length; lia|]. intros p wp_ v s k Hlt Hp. assert (0 <= wp_) by (apply RS, elem_of_zlook; eauto). lia.
  - intros i rb Hi (H1 & H2). apply wp_bind. destruct (decide (i ∈ gS)) as [Hin|Hni].
    + apply elem_of_zlook in Hin as (p & Hp). pose proof (zlook_Some_lt _ _ _ Hp) as Hpr. destruct (P2 p i Hp) as (v & s & Hv & Hs & Hr). rewrite (rd_ok _ _ _ Hs). destruct s as [[sc sd] sb]. cbn [wp]. destruct Hr as (R1 & R2 & R3 & R4 & R5). cbn [fst snd] in *. destruct (R4 q w Hq) as [Esc Esd]. destruct (A4 p i Hp) as [Erc Erd].
      rewrite (rd_ok _ _ _ Esc), (rd_ok _ _ _ Esd), (rd_ok _ _ _ Erc), (rd_ok _ _ _ Erd). cbn. rewrite (eqtotal tS tT gS gT DS DT Hnb p q Hpr Hqr), Z.eqb_refl. cbn [negb ubif].
      destruct (bounds (Kf tT tS q) (cnt tT q) (zlen gS) p Hc HK Hpr) as [B1 B2]. destruct (cnt_ok tS gS DS p Hpr) as [_ Hcs].
      destruct (bounds (Kf tS tT p) (cnt tS p) (zlen gT) q Hcs) as [B3 B4]; [intros j Hj; by apply (partner_ok tS tT gS gT DS DT Hnb)|done|]. rewrite (eqtotal tS tT gS gT DS DT Hnb p q Hpr Hqr) in B4. pose proof (cb_nonneg (Kf tT tS q) p (cnt tT q)).
      assert (Hcp := copy_seg sb rb (cb (Kf tT tS q) p (cnt tT q)) (st (Kf tS tT p) (cnt tS p) q) (st (Kf tT tS q) (cnt tT q) p) ltac:(lia) B3 ltac:(lia) B1 ltac:(lia)). eapply wp_mo; [|exact Hcp]. intros r' [L1 L2]. split; [lia|]. intros p' wp_ v' s' k Hlt Hp' Hv' Hs' Hk. rewrite L2. destruct (decide (wp_ = i)) as [->|Hne].
      * assert (p' = p) as ->. { destruct (Z.lt_trichotomy p' p) as [Hx|[?|Hx]]; [pose proof (IS _ _ _ _ Hx Hp' Hp); lia|done|pose proof (IS _ _ _ _ Hx Hp Hp'); lia]. }
        rewrite Hs in Hs'. injection Hs' as <-. cbn [snd]. match goal with |- context [if ?b then _ else _] => replace b with true by lia end. f_equal. lia.
      * assert (p' <> p) by (intros ->; congruence). pose proof (zlook_Some_lt _ _ _ Hp') as Hpr'. match goal with |- context [if ?b then _ else _] => assert (Hb : b = false) end.
        { destruct (Z.lt_trichotomy p' p) as [Hx|[?|Hx]]; [pose proof (st_mono (Kf tT tS q) (cnt tT q) p' p ltac:(lia)); lia|done|pose proof (st_mono (Kf tT tS q) (cnt tT q) p p' ltac:(lia)); lia]. }
        rewrite Hb. apply (H2 p' wp_ v' s' k); [lia|done..].
    + rewrite (rd_ok _ _ _ (P3 i Hi Hni)). cbn [wp]. assert (Ez : replicate (Z.to_nat N) 0 @ w = Some 0) by (rewrite zlook_to_nat by lia; apply lookup_replicate; split; [done|lia]). rewrite (rd_ok _ _ _ Ez), (rd_ok _ _ _ (A5 i Hi Hni)). cbn.
      apply wp_bind, wp_rd; [lia|]. intros d' _. cbn. split; [done|]. intros p wp_ v s k Hlt Hp. apply H2; [|done]. assert (wp_ <> i); [|lia]. intros ->. apply Hni, elem_of_zlook. eauto.
  - intros rb [H1 H2]. split; [done|]. intros p wp_ v s k Hp. apply H2; [|done]. assert (0 <= wp_ < N) by (apply RS, elem_of_zlook; eauto). lia.
Qed.
(** The value of the source at a global number. *)
Definition valueAt (x : Z) (y : A) : Prop := exists p l v, globalToLocal tS x = Ok (p, l) /\ svals @ p = Some v /\ v @ l = Some y.
Lemma recvData_ok q w senders r rb val : gT @ q = Some w -> atPost senders -> awaits q r -> cnt tT q <= zlen val ->
  zlen rb = cnt tT q -> (forall p wp_ v s k, gS @ p = Some wp_ -> svals @ p = Some v -> senders @ wp_ = Some s -> 0 <= k < cb (Kf tT tS q) p (cnt tT q) -> rb @ (st (Kf tT tS q) (cnt tT q) p + k) = s.2 @ (st (Kf tS tT p) (cnt tS p) q + k)) ->
  wp (recvData tS tT q r.1.1 r.1.2 rb val) (fun o => zlen o = zlen val /\ (forall l, 0 <= l < cnt tT q -> exists y, o @ l = Some y /\ valueAt (glob tT q l) y) /\ forall l, cnt tT q <= l -> o @ l = val @ l) False.
Proof using All.
  intros Hq (P1 & P2 & P3) (A1 & A2 & A3 & A4 & A5) Hval Hrb Hsegs. pose proof (zlook_Some_lt _ _ _ Hq) as Hqr. destruct (cnt_ok tT gT DT q Hqr) as [_ Hc]. rewrite A1. set (K := Kf tT tS q) in *. set (nb := cnt tT q) in *.
  assert (Hnb' : t_nb tT = t_nb tS) by done. assert (HK : forall i, 0 <= i < nb -> 0 <= K i < zlen gS) by (intros i Hi; by apply (partner_ok tT tS gT gS DT DS Hnb')). pose proof (group_pos tS gS DS) as HgS.
  unfold recvData, group. rewrite (d_group _ _ DS). apply wp_bind.
  eapply (wp_forZ (fun i d => zlen d = i + 1 /\ forall p, 0 <= p <= i -> d @ p = Some (st K nb p))); [lia| | |].
  - split; [done|]. intros p Hp. assert (p = 0) as -> by lia. done.
  - intros i d Hi [H1 H2]. apply wp_bind, wp_rd; [lia|]. intros wi Hwi. apply wp_bind. rewrite (rd_ok _ _ _ (H2 i ltac:(lia))). cbn [wp]. apply wp_bind. destruct (A4 i wi Hwi) as [Ec _]. rewrite (rd_ok _ _ _ Ec). cbn [wp]. split; [rewrite zlen_app, H1; done|].
    intros p Hp. destruct (decide (p = i + 1)) as [->|]; [rewrite <- H1, zlook_snoc, H1; by rewrite st_S by lia|]. rewrite zlook_app_l by lia. apply H2. lia.
  - intros cn [H1 H2]. apply wp_bind.
    eapply (wp_forZ (fun i '(o, c) => zlen o = zlen val /\ zlen c = zlen gS /\ (forall p, 0 <= p < zlen gS -> c @ p = Some (st K nb p + cb K p i)) /\ (forall l, 0 <= l < i -> exists y, o @ l = Some y /\ valueAt (glob tT q l) y) /\ forall l, i <= l -> o @ l = val @ l)); [done| | |].
    + split; [done|]. split; [lia|]. split; [intros p Hp; rewrite H2 by lia; rewrite cb_0; f_equal; lia|]. split; [intros l Hl; lia|done].
    + intros i [o c] Hi (V1 & V2 & V3 & V4 & V5). destruct (partner_ok tT tS gT gS DT DS Hnb' q i Hqr Hi) as [Epa Hr]. rewrite Epa. cbn. fold K in Hr |- *. apply wp_bind. rewrite (rd_ok _ _ _ (V3 _ Hr)). cbn [wp].
      (* the element in the source *)
      destruct (glob_ok tT gT DT q i Hqr Hi) as (_ & Hx & _). rewrite Hnb' in Hx. destruct (own_ok tS gS DS _ Hx) as (p & j & Eg & Hp & Hj & Hgl & Ho). assert (EK : K i = p) by exact Ho. rewrite EK in *.
      destruct (zlook_lt gS p Hp) as [wp_ Hwp]. destruct (P2 p wp_ Hwp) as (v & s & Hv & Hs & (R1 & R2 & R3 & R4 & R5)). destruct (R5 j Hj) as (y & Hy & Hbuf).
      assert (Ecb : cb (Kf tS tT p) q j = cb K p i). { apply (eqcount tS tT gS gT DS DT Hnb p q j i (glob tT q i)); [done|done|lia|fold nb; lia| |].
        - intros j' Hj'. rewrite <- Hgl. by apply (glob_mono_iff tS gS DS p j' j).
        - intros j' Hj'. by apply (glob_mono_iff tT gT DT q j' i). }
      assert (Hlt : 0 <= cb K p i < cb K p nb) by (pose proof (cb_nonneg K p i); pose proof (cb_lt K i nb Hi) as X; rewrite EK in X; lia).
      assert (Hkq : Kf tS tT p j = q) by (unfold Kf; rewrite Hgl; by apply (own_glob tT gT DT)).
      assert (Erb : rb @ (st K nb p + cb K p i) = Some (Some y)). { rewrite (Hsegs p wp_ v s _ Hwp Hv Hs Hlt). rewrite <- Ecb. rewrite <- Hbuf. unfold place. by rewrite Hkq. }
      apply wp_bind. rewrite (rdc_ok _ _ _ Erb). cbn [wp]. apply wp_bind, wp_wr; [lia|]. apply wp_bind, wp_wr; [lia|]. cbn [wp]. split; [by rewrite zlen_zset|]. split; [by rewrite zlen_zset|]. split; [|split].
      * intros p' Hp'. rewrite zlook_zset by lia. rewrite cb_S, EK by lia. destruct (Z.eqb_spec p' p) as [->|]; [rewrite Z.eqb_refl; f_equal; lia|]. replace (p =? p') with false by lia. rewrite V3 by done. f_equal. lia.
      * intros l Hl. rewrite zlook_zset by lia. destruct (Z.eqb_spec l i) as [->|]; [|apply V4; lia]. exists y. split; [done|]. exists p, j, v. done.
      * intros l Hl. rewrite zlook_zset by lia. replace (l =? i) with false by lia. apply V5. lia.
    + intros [o c] (V1 & V2 & V3 & V4 & V5). cbn [wp]. done.
Qed.
Lemma printed_ok (c d : list Z) : zlen c = N -> zlen d = N -> wp (printed c d) (fun _ => True) False.
Proof using All.
  intros Hc Hd. unfold printed. eapply (wp_forZ (fun _ _ => True)); [lia|done| |done]. intros i [] Hi _. apply wp_bind, wp_rd; [lia|]. intros x _. apply wp_bind, wp_rd; [lia|]. done.
Qed.
Context (tvals : list (list A)) (HT : zlen tvals = zlen gT) (HTl : forall q v, tvals @ q = Some v -> cnt tT q <= zlen v).
Lemma broadcast_same t g : distributed t g -> increasing g -> broadcast t = Ok t.
Proof.
  intros D I. destruct (serialize_same t g) as (buf & E1 & E2); [apply D|done|rewrite (d_procs _ _ D); by rewrite fmap_length|rewrite (d_cycle _ _ D); by rewrite fmap_length|]. unfold broadcast. rewrite E1. cbn. done.
Qed.
Theorem exchange_wp : wp (exchange N tS tT svals tvals) (fun out => zlen out = zlen gT /\
  (forall x p l q m, 0 <= x < t_nb tS -> globalToLocal tS x = Ok (p, l) -> globalToLocal tT x = Ok (q, m) -> exists v o y, svals @ p = Some v /\ v @ l = Some y /\ out @ q = Some o /\ o @ m = Some y) /\
  (forall q o v, out @ q = Some o -> tvals @ q = Some v -> zlen o = zlen v /\ forall l, cnt tT q <= l -> o @ l = v @ l)) False.
Proof using All.
  unfold exchange. rewrite (broadcast_same tS gS DS IS), (broadcast_same tT gT DT IT). cbn. rewrite Hnb, Z.eqb_refl. cbn [negb ifthrow]. unfold group. rewrite (d_group _ _ DS), (d_group _ _ DT).
  apply wp_bind. eapply wp_mo; [|apply (wp_collect (zlen gS) _ (fun p r => exists v, svals @ p = Some v /\ ready p v r)); [apply zlen_nonneg|]].
  2: { intros p Hp. apply wp_bind, wp_rd; [lia|]. intros v Hv. apply wp_bind. eapply wp_mo; [|apply prepareSource_ok; [done|by apply HSl in Hv]]. intros r Hr. apply wp_bind. eapply wp_mo; [|apply printed_ok; apply Hr]. intros [] _. cbn [wp]. eauto. }
  intros srcs [L1 L2]. apply wp_bind. set (zeros := replicate (Z.to_nat N) 0).
  eapply (wp_forZ (fun i s => zlen s = N /\ (forall p w, p < i -> gS @ p = Some w -> exists v r, svals @ p = Some v /\ s @ w = Some r /\ ready p v r) /\ forall w, 0 <= w < N -> w ∉ gS -> s @ w = Some (zeros, zeros, []))); [apply zlen_nonneg| | |].
  - split; [unfold zlen; rewrite replicate_length; lia|]. split; [intros p w Hp Hw; apply zlook_Some_lt in Hw; lia|]. intros w Hw _. rewrite zlook_to_nat by lia. apply lookup_replicate. split; [done|lia].
  - intros p s Hp (S1 & S2 & S3). apply wp_bind, wp_rd; [lia|]. intros w Hw. apply wp_bind, wp_rd; [lia|]. intros r Hr. assert (Hin : w ∈ gS) by (apply elem_of_zlook; eauto). pose proof (RS w Hin) as Hwr. apply wp_wr; [lia|]. split; [by rewrite zlen_zset|]. split.
    + intros p' w' Hp' Hw'. rewrite zlook_zset by lia. destruct (Z.eqb_spec w' w) as [->|Hne].
      * assert (p' = p) as ->. { destruct (Z.lt_trichotomy p' p) as [Hx|[?|Hx]]; [pose proof (IS _ _ _ _ Hx Hw' Hw); lia|done|lia]. } destruct (L2 p r Hr) as (v & Hv & Hrd). eauto.
      * apply S2; [|done]. assert (p' <> p) by (intros ->; congruence). lia.
    + intros w' Hw' Hn. rewrite zlook_zset by lia. destruct (Z.eqb_spec w' w) as [->|]; [done|auto].
  - intros senders (S1 & S2 & S3). assert (AP : atPost senders). { split; [done|]. split; [|done]. intros p w Hw. apply S2; [apply zlook_Some_lt in Hw; lia|done]. }
    eapply wp_mo; [|apply (wp_collect (zlen gT) _ (fun q o => forall v, tvals @ q = Some v -> zlen o = zlen v /\ (forall l, 0 <= l < cnt tT q -> exists y, o @ l = Some y /\ valueAt (glob tT q l) y) /\ forall l, cnt tT q <= l -> o @ l = v @ l)); [apply zlen_nonneg|]].
    + intros out [O1 O2]. split; [done|]. split.
      * intros x p l q m Hx ES ET. destruct (own_ok tT gT DT x Hx) as (q' & m' & ET' & Hq & Hm & Hg & _). rewrite ET in ET'. injection ET' as <- <-.
        destruct (zlook_lt out q) as [o Ho]; [lia|]. destruct (zlook_lt tvals q) as [v Hv]; [lia|]. destruct (O2 q o Ho v Hv) as (_ & O3 & _). destruct (O3 m Hm) as (y & Hy & p' & l' & v' & E1 & E2 & E3). rewrite Hg, ES in E1. injection E1 as <- <-. eauto 10.
      * intros q o v Ho Hv. destruct (O2 q o Ho v Hv) as (? & _ & ?). done.
    + intros q Hq. apply wp_bind. eapply wp_mo; [|by apply prepareTarget_ok]. intros [[nb rc] rdi] Haw. apply wp_bind. eapply wp_mo; [|apply printed_ok; apply Haw]. intros [] _. apply wp_bind, wp_rd; [lia|]. intros w Hw.
      apply wp_bind. eapply wp_mo; [|apply (allToAllV_ok q w senders (nb, rc, rdi)); done]. intros rb [B1 B2]. apply wp_bind, wp_rd; [lia|]. intros v Hv.
      eapply wp_mo; [|apply (recvData_ok q w senders (nb, rc, rdi) rb v); [done|done|done|by apply HTl in Hv|done|done]]. intros o Ho v' Hv'. rewrite Hv in Hv'. by injection Hv' as <-.
Qed.
End Run.
