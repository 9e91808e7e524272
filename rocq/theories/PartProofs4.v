From Coq Require Import ZifyBool ZifyNat.
From Verif Require Import Base DataArray ArrLib StdModel StdProofs RenumSpec RenumProofs SearchSpec SearchProofs PermProofs IndexSpec FillLib IndexProofs2 IndexProofs3 IndexProofs4 IndexProofs5 PartSpec PartModel PartProofs PartProofs2 PartProofs3.

(** * ConvertIndexArrayToO2N *)
Lemma zsplit {A} (l : list A) i x : l @ i = Some x -> exists a b, l = a ++ x :: b /\ zlen a = i.
Proof.
  intros H. pose proof (zlook_Some_lt _ _ _ H). exists (take (Z.to_nat i) l), (drop (Datatypes.S (Z.to_nat i)) l). split.
  - rewrite take_drop_middle; [done|]. unfold zlook in H. replace (i <? 0) with false in H by lia. done.
  - unfold zlen in *. rewrite take_length. lia.
Qed.
Lemma nodup_unique (ps : list (list Z)) : NoDup (concat ps) -> forall g g' p p' x, ps @ g = Some p -> ps @ g' = Some p' -> x ∈ p -> x ∈ p' -> g = g'.
Proof.
  intros Hnd g g' p p' x Hg Hg' Hx Hx'.
  assert (Hno : forall a b q q', a < b -> ps @ a = Some q -> ps @ b = Some q' -> x ∈ q -> x ∈ q' -> False).
  { clear -Hnd. intros a b q q' Hab Ha Hb Hq Hq'. pose proof (zlook_Some_lt _ _ _ Ha).
    destruct (zsplit ps a q Ha) as (l1 & l2 & -> & Hl1). rewrite concat_app in Hnd. simpl in Hnd.
    apply NoDup_app in Hnd as (_ & _ & Hnd). apply NoDup_app in Hnd as (_ & Hd & _). apply (Hd x Hq).
    rewrite zlook_app_r in Hb by lia. rewrite zlook_cons in Hb. replace (b - zlen l1 =? 0) with false in Hb by lia.
    apply elem_of_list_In, in_concat. exists q'. split; apply elem_of_list_In; [eapply zlook_elem; done|done]. }
  destruct (Z.lt_total g g') as [H|[H|H]]; [exfalso; eauto|done|exfalso; eauto].
Qed.

Section O2N.
Context (ps : list (list Z)) (n : Z).
Hypothesis Hn : 0 <= n.
Hypothesis pack_unique : forall g g' p p' x, ps @ g = Some p -> ps @ g' = Some p' -> x ∈ p -> x ∈ p' -> g = g'.
Hypothesis Hhead : forall p, p ∈ ps -> exists h, p @ 0 = Some h /\ 0 <= h < n /\ forall x, x ∈ p -> h <= x.

(** The head of the pack of [x], or [x] when it is in no pack. *)
Definition rep_of (x r : Z) : Prop := (exists p, p ∈ ps /\ x ∈ p /\ p @ 0 = Some r) \/ (x = r /\ x ∉ concat ps).
Lemma elem_concat x : x ∈ concat ps <-> exists p, p ∈ ps /\ x ∈ p.
Proof.
  rewrite elem_of_list_In, in_concat. split; intros (p & H1 & H2); exists p; rewrite !elem_of_list_In in *; done.
Qed.
Lemma rep_exists x : exists r, rep_of x r.
Proof.
  destruct (decide (x ∈ concat ps)) as [H|H]; [|exists x; right; done]. apply elem_concat in H as (p & Hp & Hx).
  destruct (Hhead p Hp) as (h & Hh & _). exists h. left. eauto.
Qed.
Lemma rep_unique x r r' : rep_of x r -> rep_of x r' -> r = r'.
Proof.
  intros [(p & Hp & Hx & Hr)|[-> Hx]] [(p' & Hp' & Hx' & Hr')|[-> Hx']]; [| | |done].
  - apply elem_of_zlook in Hp as [g Hg], Hp' as [g' Hg']. assert (g = g') as <- by (eapply pack_unique; eauto). congruence.
  - exfalso. apply Hx'. apply elem_concat. eauto.
  - exfalso. apply Hx. apply elem_concat. eauto.
Qed.
Lemma rep_le x r : rep_of x r -> r <= x.
Proof. intros [(p & Hp & Hx & Hr)|[-> Hx]]; [|lia]. destruct (Hhead p Hp) as (h & Hh & _ & Hm). assert (h = r) as -> by congruence. auto. Qed.
Lemma rep_rep x r : rep_of x r -> rep_of r r.
Proof. intros [(p & Hp & Hx & Hr)|[-> Hx]]; [left; exists p; split; [done|]; split; [eapply zlook_elem; done|done]|right; done]. Qed.
Lemma rep_nonneg x r : 0 <= x -> rep_of x r -> 0 <= r.
Proof. intros Hx [(p & Hp & _ & Hr)|[-> _]]; [|done]. destruct (Hhead p Hp) as (h & Hh & Hb & _). assert (h = r) as -> by congruence. lia. Qed.
Lemma rep_same x y : (exists r, rep_of x r /\ rep_of y r) <-> x = y \/ exists p, p ∈ ps /\ x ∈ p /\ y ∈ p.
Proof.
  split.
  - intros (r & [(p & Hp & Hx & Hr)|[-> Hx]] & [(p' & Hp' & Hy & Hr')|[-> Hy]]).
    + right. exists p. split; [done|]. split; [done|]. pose proof Hp as Hp0. apply elem_of_zlook in Hp0 as [g Hg]. apply elem_of_zlook in Hp' as [g' Hg'].
      assert (g = g') as <- by (eapply (pack_unique g g' p p' r); eauto using zlook_elem). congruence.
    + exfalso. apply Hy, elem_concat. exists p. eauto using zlook_elem.
    + exfalso. apply Hx, elem_concat. exists p'. eauto using zlook_elem.
    + left. done.
  - intros [->|(p & Hp & Hx & Hy)]; [destruct (rep_exists y) as [r Hr]; eauto|]. destruct (Hhead p Hp) as (h & Hh & _). exists h. split; left; eauto.
Qed.

Context (arr arrI : list Z).
Hypothesis Hsky : skyline ps arr arrI.

Definition marked (G : Z) (pt : list Z) : Prop :=
  zlen pt = n /\ (forall g p h, 0 <= g < G -> ps @ g = Some p -> p @ 0 = Some h -> pt @ h = Some (- (g + 2))) /\
  forall x, 0 <= x < n -> (forall g p, 0 <= g < G -> ps @ g = Some p -> p @ 0 <> Some x) -> pt @ x = Some (-1).

Lemma idx_len : zlen arrI = zlen ps + 1.
Proof. destruct Hsky as [_ [H _]]. rewrite zlen_fmap in H. done. Qed.

Lemma mark_all : wp (forZ 0 (zlen arrI - 1) (fun i pt => let* a := rd arrI i in let* x := rd arr a in wr pt x (- (i + 2))) (replicate (Z.to_nat n) (-1))) (marked (zlen ps)) False.
Proof.
  replace (zlen arrI - 1) with (zlen ps) by (rewrite idx_len; lia).
  apply (wp_forZ marked).
  - apply zlen_nonneg.
  - split; [rewrite zlen_replicate; lia|]. split; [lia|]. intros x Hx _. apply zlook_replicate. lia.
  - intros i pt Hi (Hl & Hm & Hu). destruct (ps @ i) as [p|] eqn:Ep; [|apply zlook_None in Ep; lia].
    destruct (sky_pack ps arr arrI i p Hsky Ep) as (a & b & Ha & Hb & Ha0 & Hab & Hbl & Hp).
    destruct (Hhead p (zlook_elem _ _ _ Ep)) as (h & Hh & Hhb & _). rewrite (rd_ok _ _ _ Ha). cbn [bind].
    assert (Hah : arr @ a = Some h).
    { rewrite Hp in Hh. destruct (decide (a = b)) as [->|]; [rewrite sub_empty, zlook_nil in Hh by lia; done|]. rewrite zlook_sub in Hh by lia. rewrite Z.add_0_r in Hh. done. }
    rewrite (rd_ok _ _ _ Hah). cbn [bind]. rewrite wr_ok by lia. simpl. split; [rewrite zlen_zset; done|]. split.
    + intros g q h' Hg Hq Hh'. rewrite zlook_zset by lia. destruct (decide (g = i)) as [->|Hne].
      * assert (q = p) as -> by congruence. assert (h' = h) as -> by congruence. rewrite Z.eqb_refl. done.
      * replace (h' =? h) with false; [apply (Hm g q); [lia|done..]|]. symmetry. apply Z.eqb_neq. intros ->. apply Hne.
        eapply (pack_unique g i q p h); eauto using zlook_elem.
    + intros x Hx Hno. rewrite zlook_zset by lia. replace (x =? h) with false; [apply Hu; [done|]; intros g q Hg; apply Hno; lia|].
      symmetry. apply Z.eqb_neq. intros ->. apply (Hno i p); [lia|done..].
  - done.
Qed.

(** State of the numbering loop when the elements below [i] have been treated. *)
Definition inv (i : Z) (pt : list Z) (c : Z) : Prop :=
  0 <= i <= n /\ zlen pt = n /\ 0 <= c /\
  (forall x r, 0 <= x < n -> rep_of x r -> r < i -> exists v, pt @ x = Some v /\ 0 <= v < c) /\
  (forall x y r s v w, 0 <= x < n -> 0 <= y < n -> rep_of x r -> rep_of y s -> r < i -> s < i -> pt @ x = Some v -> pt @ y = Some w -> v = w <-> r = s) /\
  (forall x r, 0 <= x < n -> rep_of x r -> i <= r ->
     (forall g p, ps @ g = Some p -> p @ 0 = Some x -> pt @ x = Some (- (g + 2))) /\ ((forall p, p ∈ ps -> p @ 0 <> Some x) -> pt @ x = Some (-1))) /\
  (forall v, 0 <= v < c <-> v ∈ take (Z.to_nat i) pt) /\ ordered_by_first (take (Z.to_nat i) pt) /\
  (forall p h x, p ∈ ps -> p @ 0 = Some h -> h < i -> x ∈ p -> 0 <= x < n).

Lemma take_agree (l l' : list Z) i : 0 <= i -> zlen l = zlen l' -> (forall x, 0 <= x < i -> l @ x = l' @ x) -> take (Z.to_nat i) l = take (Z.to_nat i) l'.
Proof.
  intros Hi Hl Hx. apply zlook_ext. intros x. destruct (decide (0 <= x < i)).
  - rewrite !zlook_take by lia. auto.
  - destruct (decide (x < 0)); [rewrite !zlook_neg by lia; done|]. rewrite !zlook_ge; [done|unfold zlen; rewrite take_length; lia..].
Qed.

(** Numbering the class of [i]: every element of the class gets [c], the others are kept. *)
Lemma inv_new i pt pt' c : 0 <= i < n -> inv i pt c -> rep_of i i -> zlen pt' = n ->
  (forall x, 0 <= x < n -> rep_of x i -> pt' @ x = Some c) -> (forall x, 0 <= x < n -> ~ rep_of x i -> pt' @ x = pt @ x) ->
  (forall p x, p ∈ ps -> p @ 0 = Some i -> x ∈ p -> 0 <= x < n) -> inv (i + 1) pt' (c + 1).
Proof.
  intros Hi (Hi0 & Hl & Hc & Ha & Hb & Hd & Hall & Hobf & Hin) Hr Hl' Hcls Hoth Hpi.
  assert (Hlow : forall x r, 0 <= x < n -> rep_of x r -> r < i -> pt' @ x = pt @ x).
  { intros x r Hx Hxr Hri. apply Hoth; [done|]. intros Hxi. pose proof (rep_unique _ _ _ Hxr Hxi). lia. }
  assert (Htk : take (Z.to_nat (i + 1)) pt' = take (Z.to_nat i) pt ++ [c]).
  { rewrite (take_succ _ i c) by (apply Hcls; [lia|done]). f_equal. apply take_agree; [lia|lia|]. intros x Hx. apply Hoth; [lia|]. intros Hxi. apply rep_le in Hxi. lia. }
  split; [lia|]. split; [done|]. split; [lia|]. split; [|split; [|split; [|split; [|split]]]].
  - intros x r Hx Hxr Hri. destruct (decide (r = i)) as [->|]; [exists c; split; [auto|lia]|].
    destruct (Ha x r Hx Hxr ltac:(lia)) as (v & Hv & Hvc). exists v. split; [rewrite (Hlow _ r) by (done || lia); done|lia].
  - intros x y r s v w Hx Hy Hxr Hys Hri Hsi Hv Hw.
    destruct (decide (r = i)) as [->|Hri']; destruct (decide (s = i)) as [->|Hsi'].
    + rewrite (Hcls x Hx Hxr) in Hv. rewrite (Hcls y Hy Hys) in Hw. split; congruence.
    + rewrite (Hcls x Hx Hxr) in Hv. rewrite (Hlow _ s) in Hw by (done || lia). destruct (Ha y s Hy Hys ltac:(lia)) as (w' & Hw' & Hwc).
      assert (w' = w) as -> by congruence. assert (c = v) as <- by congruence. lia.
    + rewrite (Hcls y Hy Hys) in Hw. rewrite (Hlow _ r) in Hv by (done || lia). destruct (Ha x r Hx Hxr ltac:(lia)) as (w' & Hw' & Hwc).
      assert (w' = v) as -> by congruence. assert (c = w) as <- by congruence. lia.
    + rewrite (Hlow _ r) in Hv by (done || lia). rewrite (Hlow _ s) in Hw by (done || lia). apply (Hb x y r s); (done || lia).
  - intros x r Hx Hxr Hri. assert (Hpt : pt' @ x = pt @ x).
    { apply Hoth; [done|]. intros Hxi. pose proof (rep_unique _ _ _ Hxr Hxi). lia. }
    rewrite Hpt. apply (Hd x r); [done|done|lia].
  - intros v. rewrite Htk, elem_of_app, elem_of_list_singleton, <- Hall. lia.
  - rewrite Htk. apply obf_new; [|done]. intros v Hv. apply Hall in Hv. lia.
  - intros p h x Hp Hh Hhi Hx. destruct (decide (h = i)) as [->|]; [eauto|]. apply (Hin p h x); (done || lia).
Qed.
(** The class of [i] already has its number. *)
Lemma inv_old i pt c r : 0 <= i < n -> inv i pt c -> rep_of i r -> r < i -> inv (i + 1) pt c.
Proof.
  intros Hi (Hi0 & Hl & Hc & Ha & Hb & Hd & Hall & Hobf & Hin) Hr Hri.
  assert (Hno : forall x, rep_of x i -> False).
  { intros x Hx. apply rep_rep in Hx. pose proof (rep_unique _ _ _ Hr Hx). lia. }
  assert (Hne : forall x s, rep_of x s -> s < i + 1 -> s < i).
  { intros x s Hs Hsi. destruct (decide (s = i)) as [->|]; [exfalso; eauto|lia]. }
  destruct (Ha i r Hi Hr Hri) as (v & Hv & Hvc).
  assert (Htk : take (Z.to_nat (i + 1)) pt = take (Z.to_nat i) pt ++ [v]) by (apply take_succ; done).
  assert (Hvin : v ∈ take (Z.to_nat i) pt) by (apply Hall; done).
  split; [lia|]. split; [done|]. split; [lia|]. split; [|split; [|split; [|split; [|split]]]].
  - intros x s Hx Hs Hsi. eauto.
  - intros x y s t a b Hx Hy Hs Ht Hsi Hti. apply Hb; eauto.
  - intros x s Hx Hs Hsi. apply (Hd x s); [done|done|lia].
  - intros w. rewrite Htk, elem_of_app, elem_of_list_singleton, <- Hall. lia.
  - rewrite Htk. apply obf_old; done.
  - intros p h x Hp Hh Hhi Hx. assert (rep_of h h) by (left; exists p; split; [done|]; split; [eapply zlook_elem; done|done]). eapply Hin; eauto.
Qed.

Lemma group_wp b e p (pt : list Z) c : 0 <= b -> b <= e -> e <= zlen arr -> p = sub arr b e -> zlen pt = n ->
  wp (forZ b e (fun j pt => let* x := rd arr j in if (0 <=? x) && (x <? n) then wr pt x c else Throw) pt)
   (fun pt' : list Z => zlen pt' = n /\ (forall x, x ∈ p -> 0 <= x < n /\ pt' @ x = Some c) /\ forall x, x ∉ p -> pt' @ x = pt @ x)
   (exists x, x ∈ p /\ ~ 0 <= x < n).
Proof.
  intros Hb Hbe He -> Hl.
  apply (wp_forZ (fun j pt' => b <= j /\ zlen pt' = n /\ (forall x, x ∈ sub arr b j -> 0 <= x < n /\ pt' @ x = Some c) /\ forall x, x ∉ sub arr b j -> pt' @ x = pt @ x)).
  - done.
  - rewrite sub_empty by lia. split; [lia|]. split; [done|]. split; [intros x Hx; apply elem_of_nil in Hx; done|done].
  - intros j pt' Hj (_ & Hl' & Hin & Hout). destruct (arr @ j) as [x|] eqn:Ex; [|apply zlook_None in Ex; lia]. rewrite (rd_ok _ _ _ Ex). cbn [bind].
    destruct ((0 <=? x) && (x <? n)) eqn:E.
    2:{ simpl. exists x. split; [|lia]. apply elem_of_sub; [lia|lia|]. exists j. split; [lia|done]. }
    rewrite wr_ok by lia. simpl. rewrite (sub_snoc _ _ _ x) by (done || lia). split; [lia|]. split; [rewrite zlen_zset; done|]. split.
    + intros y [Hy|Hy%elem_of_list_singleton]%elem_of_app.
      * destruct (Hin y Hy) as [? ?]. split; [done|]. rewrite zlook_zset by lia. destruct (y =? x); done.
      * subst y. split; [lia|]. rewrite zlook_zset by lia. rewrite Z.eqb_refl. done.
    + intros y Hy. rewrite elem_of_app, elem_of_list_singleton in Hy. rewrite zlook_zset by lia. replace (y =? x) with false by lia. apply Hout. tauto.
  - intros pt' (_ & H). done.
Qed.

Lemma o2n_wp : wp (ConvertIndexArrayToO2N n arr arrI) (fun '(ret, c) => exists r, ret = Some <$> r /\ inv n r c) (out_of_range n (concat ps)).
Proof.
  unfold ConvertIndexArrayToO2N. rewrite alloc1 by done. cbn [bind]. unfold malloc. rewrite fmap_replicate.
  eapply wp_bind'; [eapply wp_mono; [apply mark_all|intros r Hr; exact Hr|done]|]. intros pt (Hl & Hm & Hu).
  eapply wp_bind'.
  { apply (wp_forZ (fun i '(pt, c) => inv i pt c) 0 n _ _ (fun '(pt, c) => inv n pt c)).
    - done.
    - split; [lia|]. split; [done|]. split; [lia|].
      assert (Hneg : forall x r, 0 <= x -> rep_of x r -> r < 0 -> False) by (intros x r Hx Hr Hr0; pose proof (rep_nonneg _ _ Hx Hr); lia).
      split; [intros; exfalso; naive_solver|]. split; [intros; exfalso; naive_solver|]. split; [|split; [|split]].
      + intros x r Hx Hr _. split; [intros g p Hg Hp; eapply Hm; eauto; apply zlook_Some_lt in Hg; done|]. intros Hno. apply Hu; [done|]. intros g p _ Hg. apply Hno. eapply zlook_elem; done.
      + intros v. rewrite elem_of_nil. lia.
      + apply obf_nil.
      + intros p h x Hp Hh Hh0. destruct (Hhead p Hp) as (h' & Hh' & ? & _). assert (h' = h) as -> by congruence. lia.
    - intros i [pt' c] Hi HI. pose proof HI as (Hi0 & Hl' & Hc & Ha & Hb & Hd & Hall & Hobf & Hin).
      destruct (rep_exists i) as [r Hr]. pose proof (rep_le _ _ Hr) as Hle.
      destruct (decide (r < i)) as [Hlt|].
      { destruct (Ha i r ltac:(lia) Hr Hlt) as (v & Hv & Hvc). rewrite (rd_ok _ _ _ Hv). cbn [bind]. replace (v <? 0) with false by lia. simpl. eapply inv_old; eauto. }
      assert (r = i) as -> by lia. destruct (Hd i i ltac:(lia) Hr ltac:(lia)) as [Hd1 Hd2].
      pose proof Hr as [(p & Hp & Hip & Hph)|[_ Hni]].
      + pose proof Hp as Hp0. apply elem_of_zlook in Hp0 as [g Hg]. pose proof (zlook_Some_lt _ _ _ Hg). rewrite (rd_ok _ _ _ (Hd1 g p Hg Hph)). cbn [bind].
        replace (- (g + 2) <? 0) with true by lia. replace (- (g + 2) =? -1) with false by lia. replace (- (- (g + 2) + 2)) with g by lia.
        destruct (sky_pack ps arr arrI g p Hsky Hg) as (a & b & Hga & Hgb & Ha0 & Hab & Hbl & Hpe).
        rewrite (rd_ok _ _ _ Hga). cbn [bind]. rewrite (rd_ok _ _ _ Hgb). cbn [bind].
        eapply wp_bind'; [eapply wp_mono; [apply (group_wp a b p pt' c); done|intros q Hq; exact Hq|]|].
        { intros (x & Hx & Hnx). exists x. split; [apply elem_concat; eauto|done]. }
        intros pt2 (Hl2 & Hin2 & Hout2). simpl.
        assert (Hcl : forall x, rep_of x i <-> x ∈ p).
        { intros x. split; [|intros Hx; left; eauto]. intros Hx.
          destruct (proj1 (rep_same x i)) as [->|(q & Hq & Hxq & Hiq)]; [eauto|done|].
          apply elem_of_zlook in Hq as [g' Hq]. assert (g = g') as <- by (eapply (pack_unique g g' p q i); eauto). congruence. }
        apply (inv_new i pt'); [lia|done|done|done|..].
        * intros x Hx Hxi. apply Hin2, Hcl. done.
        * intros x Hx Hxi. apply Hout2. rewrite <- Hcl. done.
        * intros q x Hq Hqi Hx. apply Hin2, Hcl. left. eauto.
      + rewrite (rd_ok pt' i (-1)) by (apply Hd2; intros p Hp Hpi; apply Hni, elem_concat; exists p; split; [done|eapply zlook_elem; done]). cbn [bind].
        replace (-1 <? 0) with true by lia. rewrite Z.eqb_refl. rewrite wr_ok by lia. simpl.
        assert (Hcl : forall x, rep_of x i -> x = i).
        { intros x Hx. destruct (proj1 (rep_same x i)) as [->|(q & Hq & Hxq & Hiq)]; [eauto|done|]. exfalso. apply Hni, elem_concat. eauto. }
        apply (inv_new i pt'); [lia|done|done|rewrite zlen_zset; done|..].
        * intros x Hx Hxi. apply Hcl in Hxi as ->. rewrite zlook_zset, Z.eqb_refl by lia. done.
        * intros x Hx Hxi. rewrite zlook_zset by lia. replace (x =? i) with false; [done|]. symmetry. apply Z.eqb_neq. intros ->. done.
        * intros q x Hq Hqi Hx. exfalso. apply Hni, elem_concat. exists q. split; [done|eapply zlook_elem; done].
    - intros [pt' c] H. done. }
  intros [pt' c] HI. simpl. eauto.
Qed.

Lemma o2n_conv_ok : (forall x, x ∈ concat ps -> 0 <= x < n) -> exists r K, ConvertIndexArrayToO2N n arr arrI = Ok (Some <$> r, K) /\ zlen r = n /\
  (forall i j a b, r @ i = Some a -> r @ j = Some b -> a = b <-> i = j \/ exists p, p ∈ ps /\ i ∈ p /\ j ∈ p) /\
  (forall v, v ∈ r <-> 0 <= v < K) /\ ordered_by_first r.
Proof.
  intros Hin. pose proof o2n_wp as H. destruct (ConvertIndexArrayToO2N n arr arrI) as [[ret c]| | |]; simpl in H; try done.
  2:{ destruct H as (x & Hx & Hnx). exfalso. auto. }
  destruct H as (r & -> & (_ & Hl & Hc & Ha & Hb & Hd & Hall & Hobf & _)). exists r, c.
  assert (Ht : take (Z.to_nat n) r = r) by (apply take_ge; unfold zlen in Hl; lia). rewrite Ht in Hall, Hobf.
  split; [done|]. split; [done|]. split; [|split; [|done]].
  - intros i j a b Hi Hj. pose proof (zlook_Some_lt _ _ _ Hi). pose proof (zlook_Some_lt _ _ _ Hj).
    destruct (rep_exists i) as [ri Hri]. destruct (rep_exists j) as [rj Hrj]. rewrite <- rep_same.
    pose proof (rep_le _ _ Hri). pose proof (rep_le _ _ Hrj).
    rewrite (Hb i j ri rj a b) by (done || lia). split; [intros ->; eauto|]. intros (s & Hs1 & Hs2).
    rewrite (rep_unique _ _ _ Hri Hs1), (rep_unique _ _ _ Hrj Hs2). done.
  - intros v. symmetry. apply Hall.
Qed.
Lemma o2n_conv_throw : ConvertIndexArrayToO2N n arr arrI = Throw <-> exists x, x ∈ concat ps /\ ~ 0 <= x < n.
Proof.
  pose proof o2n_wp as H. split.
  - intros E. rewrite E in H. done.
  - intros (x & Hx & Hnx). destruct (ConvertIndexArrayToO2N n arr arrI) as [[ret c]| | |]; simpl in H; try done. exfalso.
    destruct H as (r & _ & (_ & _ & _ & _ & _ & _ & _ & _ & Hin)). apply elem_concat in Hx as (p & Hp & Hxp).
    destruct (Hhead p Hp) as (h & Hh & Hb & _). apply Hnx. apply (Hin p h x); (done || lia).
Qed.
End O2N.
