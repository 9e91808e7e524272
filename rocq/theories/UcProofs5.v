From Coq Require Import QArith ZifyBool ZifyNat.
From Verif Require Import Base DataArray ArrLib FillLib StdModel StdProofs IndexSpec IndexProofs2 IndexProofs3 IndexProofs4 SkyProofs RenumModel RenumSpec RenumProofs RenumProofs2 PartSpec PartModel PartProofs4 CellTable UmModel UmSpec UmProofs UmProofs2 UmProofs8 UmProofs10 UcModel UcSpec UcProofs UcProofs2 UcProofs3 UcProofs4.
Local Open Scope Z_scope.

Lemma max_ok x r : exists v, maxInArray (x :: r) = Ok v /\ v ∈ x :: r /\ forall w, w ∈ x :: r -> w <= v.
Proof.
  exists (fold_left Z.max r x). split; [done|]. revert x. induction r as [|y r IH]; intros x; cbn.
  - split; [left|]. intros w Hw. apply elem_of_list_singleton in Hw. lia.
  - destruct (IH (Z.max x y)) as [H1 H2]. split.
    + apply elem_of_cons in H1 as [H1|H1]; [|by do 2 right]. rewrite H1. destruct (Z.max_spec x y) as [[_ ->]|[_ ->]]; [right; left|left].
    + intros w Hw. rewrite !elem_of_cons in Hw. specialize (H2 (Z.max x y) ltac:(left)) as Hm. destruct Hw as [->|[->|Hw]]; [lia|lia|]. apply H2. by right.
Qed.
Lemma range_front (A B : list Z) : range (A ++ B) 0 (zlen A) = Ok A.
Proof. apply (range_mid [] A B). Qed.
Lemma range_back (A B : list Z) n : n = zlen A + zlen B -> range (A ++ B) (zlen A) n = Ok B.
Proof. intros ->. pose proof (range_mid A B []) as H. rewrite app_nil_r in H. exact H. Qed.
Lemma split_len (r : list Z) n : 0 <= n <= zlen r -> exists p q, r = p ++ q /\ zlen p = n.
Proof. intros H. exists (take (Z.to_nat n) r), (drop (Z.to_nat n) r). split; [by rewrite take_drop|]. rewrite zlen_take. lia. Qed.
Lemma first_pos_exists (l : list Z) x : x ∈ l -> exists i, first_pos l x i.
Proof.
  intros H. destruct (find_split l (fun w => w =? x)) as (A & y & B & -> & Hy & HA & _); [exists x; split; [done|lia]|]. assert (y = x) as -> by lia. exists (zlen A). split; [rewrite zlook_app_r by lia; by rewrite Z.sub_diag|].
  intros j Hj. intros Hx. pose proof (zlook_Some_lt _ _ _ Hx). rewrite zlook_app_l in Hx by lia. assert (x ∈ A) as Hin by (by eapply zlook_elem). specialize (HA x Hin). cbn in HA. lia.
Qed.

Section Inc.
Context (p nA : Z) (A B : list cell) (r p0 p2 : list Z) (K : Z).
Hypothesis HQ : quotient p (zlen A) (A ++ B) r K.
Hypothesis Er : r = p0 ++ p2.
Hypothesis Hp0 : zlen p0 = zlen A.
Hypothesis HB : 0 < zlen B.
Context (mx : Z).
Hypothesis Hmx : mx ∈ p0.
Hypothesis Hmax : forall w, w ∈ p0 -> w <= mx.

Lemma p2_len : zlen p2 = zlen B.
Proof. destruct HQ as (Hl & _). rewrite Er, !zlen_app in Hl. lia. Qed.
Lemma low_part v : v ∈ p0 <-> 0 <= v <= mx.
Proof.
  destruct HQ as (Hl & _ & Hv & Ho). assert (Hsub : forall w, w ∈ p0 -> 0 <= w < K) by (intros w Hw; apply Hv; rewrite Er; apply elem_of_app; by left). split.
  - intros Hw. split; [by apply Hsub|by apply Hmax].
  - intros Hw. destruct (decide (v ∈ p0)) as [|Hn]; [done|exfalso]. assert (Hvr : v ∈ r) by (apply Hv; specialize (Hsub mx Hmx); lia).
    destruct (first_pos_exists r v Hvr) as [i Hi]. destruct (first_pos_exists p0 mx Hmx) as [j Hj].
    assert (Hj' : first_pos r mx j). { destruct Hj as [Hj1 Hj2]. pose proof (zlook_Some_lt _ _ _ Hj1). split; [rewrite Er, zlook_app_l by lia; done|]. intros k Hk. rewrite Er, zlook_app_l by lia. by apply Hj2. }
    destruct (Z.lt_ge_cases i (zlen p0)) as [Hlt|Hge]. { destruct Hi as [Hi _]. pose proof (zlook_Some_lt _ _ _ Hi). rewrite Er, zlook_app_l in Hi by lia. apply Hn. by eapply zlook_elem. }
    assert (j < i) as Hji by (destruct Hj as [Hj _]; apply zlook_Some_lt in Hj; lia). specialize (Ho j i mx v Hj' Hi Hji). lia.
Qed.
Lemma same_number i j c d a b : A @ i = Some c -> B @ j = Some d -> p0 @ i = Some a -> p2 @ j = Some b -> a = b <-> alike p c d.
Proof.
  intros Hc Hd Ha Hb. pose proof (zlook_Some_lt _ _ _ Hc). pose proof (zlook_Some_lt _ _ _ Hd). destruct HQ as (_ & Hs & _).
  assert (Hd' : (A ++ B) @ (zlen A + j) = Some d) by (rewrite zlook_app_r by lia; replace (zlen A + j - zlen A) with j by lia; done).
  rewrite (Hs i (zlen A + j) c d a b); [|rewrite zlook_app_l by lia; done|done|rewrite Er, zlook_app_l by lia; done|rewrite Er, zlook_app_r by lia; rewrite Hp0; replace (zlen A + j - zlen A) with j by lia; done]. split.
  - intros [->|[H1 _]]; [lia|done].
  - intros Hal. right. split; [done|]. exists (zlen A + j), d. split; [lia|]. split; [done|]. by apply alike_sym.
Qed.
Lemma in_front j d b : B @ j = Some d -> p2 @ j = Some b -> b ∈ p0 <-> exists c, c ∈ A /\ alike p c d.
Proof.
  intros Hd Hb. split.
  - intros Hin. apply elem_of_zlook in Hin as [i Hi]. pose proof (zlook_Some_lt _ _ _ Hi). destruct (zlook_lt A i) as [c Hc]; [lia|]. exists c. split; [by eapply zlook_elem|]. by apply (same_number i j c d b b).
  - intros (c & Hc & Hal). apply elem_of_zlook in Hc as [i Hi]. pose proof (zlook_Some_lt _ _ _ Hi). destruct (zlook_lt p0 i) as [a Ha]; [lia|]. assert (a = b) as <- by (by apply (same_number i j c d a b)). by eapply zlook_elem.
Qed.
Lemma all_found : (mx =? K - 1) = true <-> forall d, d ∈ B -> exists c, c ∈ A /\ alike p c d.
Proof.
  destruct HQ as (_ & _ & Hv & _). pose proof p2_len as Hl2. split.
  - intros E d Hd. apply elem_of_zlook in Hd as [j Hj]. pose proof (zlook_Some_lt _ _ _ Hj). destruct (zlook_lt p2 j) as [b Hb]; [lia|]. apply (in_front j d b Hj Hb). apply low_part. assert (b ∈ r) as Hbr by (rewrite Er; apply elem_of_app; right; by eapply zlook_elem). apply Hv in Hbr. lia.
  - intros Hall. assert (mx ∈ r) as Hm by (rewrite Er; apply elem_of_app; by left). apply Hv in Hm. assert (K - 1 ∈ r) as HK by (apply Hv; lia). rewrite Er in HK. assert (K - 1 ∈ p0); [|apply low_part in H; lia]. apply elem_of_app in HK as [|HK]; [done|]. apply elem_of_zlook in HK as [j Hj]. pose proof (zlook_Some_lt _ _ _ Hj). destruct (zlook_lt B j) as [d Hd]; [lia|].
    apply (in_front j d _ Hd Hj). apply Hall. by eapply zlook_elem.
Qed.
Lemma diff_len : different p A -> zlen A <= mx + 1.
Proof.
  intros Hdf. assert (Hm0 : 0 <= mx) by (apply low_part in Hmx; lia).
  assert (Hnd : NoDup p0). { apply NoDup_alt. intros i j x Hi Hj. rewrite <- zlook_nat in Hi, Hj. pose proof (zlook_Some_lt _ _ _ Hi). pose proof (zlook_Some_lt _ _ _ Hj). destruct (zlook_lt A (Z.of_nat i)) as [c Hc]; [lia|]. destruct (zlook_lt A (Z.of_nat j)) as [d Hd]; [lia|]. destruct HQ as (_ & Hs & _).
    destruct (Hs (Z.of_nat i) (Z.of_nat j) c d x x) as [Hs1 _]; [rewrite zlook_app_l by lia; done|rewrite zlook_app_l by lia; done|rewrite Er, zlook_app_l by lia; done|rewrite Er, zlook_app_l by lia; done|]. destruct (Hs1 eq_refl) as [|[Hal _]]; [lia|]. specialize (Hdf _ _ c d Hc Hd Hal). lia. }
  assert (zlen p0 <= zlen (seqZ 0 (mx + 1))); [|unfold zlen in *; rewrite seqZ_length in *; lia]. unfold zlen. apply Nat2Z.inj_le, submseteq_length, NoDup_submseteq; [done|]. intros x Hx. apply elem_of_seqZ. apply low_part in Hx. lia.
Qed.
(** The second half of the program. *)
Lemma inverse_ok : exists q a, (let* p1 := invertArrayO2N2N2O (vec p0) K in forZ mx (K - 1) (fun i pt => wrc pt (i + 1) (i + 1)) p1) = Ok (Some <$> q) /\
  foldM (fun r v => if (0 <=? v) && (v <? zlen q) then (let* x := rd q v in Ok (r ++ [x])) else Throw) p2 [] = Ok a /\ found_in p A B (mx =? K - 1) a.
Proof.
  destruct HQ as (Hl & Hs & Hv & Ho). assert (Hp0v : forall v, v ∈ p0 -> 0 <= v < K) by (intros w Hw; apply Hv; rewrite Er; apply elem_of_app; by left). pose proof (Hp0v mx Hmx) as Hmk.
  destruct (invertO2N_ok p0 K ltac:(lia)) as (q & E & Hql & H1 & H2). { intros v Hx. right. by apply Hp0v. } rewrite E. cbn [bind].
  assert (W : wp (forZ mx (K - 1) (fun i pt => wrc pt (i + 1) (i + 1)) q) (fun s => zlen s = K /\ (forall t, 0 <= t <= mx -> s @ t = q @ t) /\ forall t, mx < t < K -> s @ t = Some (Some t)) False).
  { apply (wp_forZ (fun i s => zlen s = K /\ (forall t, 0 <= t <= mx -> s @ t = q @ t) /\ forall t, mx < t <= i -> s @ t = Some (Some t))); [lia|split; [done|]; split; [done|intros; lia]| |].
    - intros i s Hi (Hsl & Hs1 & Hs2). unfold wrc, wr. rewrite Hsl. replace ((0 <=? i + 1) && _) with true by lia. cbn. split; [by rewrite zlen_zset|]. split; intros t Ht; rewrite zlook_zset by lia.
      + replace (t =? i + 1) with false by lia. by apply Hs1.
      + destruct (Z.eqb_spec t (i + 1)) as [->|]; [done|]. apply Hs2. lia.
    - intros s (Hsl & Hs1 & Hs2). split; [done|]. split; [done|]. intros t Ht. apply Hs2. lia. }
  apply wp_ok in W as (s & -> & Hsl & Hs1 & Hs2).
  assert (Hlow : forall t, 0 <= t <= mx -> exists i, s @ t = Some (Some i) /\ last_pos p0 t i). { intros t Ht. destruct (last_pos_exists p0 t) as [i Hi]; [by apply low_part|]. exists i. rewrite Hs1 by done. split; [apply H1; [lia|done]|done]. }
  assert (Hex : s = Some <$> (default 0 <$> s)).
  { apply zlook_ext. intros t. rewrite !zlook_fmap. destruct (s @ t) as [x|] eqn:Ex; [|done]. pose proof (zlook_Some_lt _ _ _ Ex). destruct (Z.le_gt_cases t mx); [destruct (Hlow t ltac:(lia)) as (i & Hi & _); assert (x = Some i) as -> by congruence; done|]. rewrite Hs2 in Ex by lia. injection Ex as <-. done. }
  set (q' := default 0 <$> s) in *. exists q'. assert (Hq' : forall t x, s @ t = Some (Some x) -> q' @ t = Some x) by (intros t x Hx; unfold q'; rewrite zlook_fmap, Hx; done). assert (Hq'l : zlen q' = K) by (unfold q'; rewrite zlen_fmap; done).
  set (f := fun v => default 0 (q' @ v)). exists (f <$> p2). split; [by rewrite <- Hex|].
  assert (Hf : forall l acc, (forall v, v ∈ l -> 0 <= v < K) -> foldM (fun r v => if (0 <=? v) && (v <? zlen q') then (let* x := rd q' v in Ok (r ++ [x])) else Throw) l acc = Ok (acc ++ (f <$> l))).
  { induction l as [|v l IH]; intros acc Hin; cbn [foldM]; [by rewrite app_nil_r|]. assert (0 <= v < K) by (apply Hin; left). replace (_ && _) with true by lia. destruct (zlook_lt q' v) as [x Hx]; [lia|]. rewrite (rd_ok _ _ _ Hx). cbn [bind]. rewrite IH by (intros; apply Hin; by right). rewrite <- app_assoc. cbn [app]. rewrite fmap_cons. unfold f at 2. rewrite Hx. done. }
  split; [apply (Hf p2 [])|]. { intros v Hx. apply Hv. rewrite Er. apply elem_of_app. by right. }
  pose proof p2_len as Hl2. split; [by rewrite zlen_fmap|]. split; [apply all_found|]. intros j d v Hd Ha. rewrite zlook_fmap in Ha. destruct (p2 @ j) as [t|] eqn:Et; [|done]. cbn in Ha. injection Ha as <-.
  assert (Ht : 0 <= t < K) by (apply Hv; rewrite Er; apply elem_of_app; right; by eapply zlook_elem).
  destruct (Z.le_gt_cases t mx) as [Hle|Hgt]; [left|right].
  - destruct (Hlow t ltac:(lia)) as (i & Hi & Hla & Hlast). unfold f. rewrite (Hq' _ _ Hi). cbn [default]. pose proof (zlook_Some_lt _ _ _ Hla). destruct (zlook_lt A i) as [c Hc]; [lia|]. exists c. split; [done|]. split; [by apply (same_number i j c d t t)|].
    intros w e He Hal. pose proof (zlook_Some_lt _ _ _ He). destruct (zlook_lt p0 w) as [a Ha]; [lia|]. destruct (Z.le_gt_cases w i) as [|Hwi]; [done|exfalso]. apply (Hlast w Hwi). rewrite Ha. f_equal. by apply (same_number w j e d a t).
  - assert (Hnot : ~ exists c, c ∈ A /\ alike p c d). { intros Hc. apply (in_front j d t Hd Et) in Hc. apply low_part in Hc. lia. }
    split; [intros c Hc Hal; eauto|]. intros Hdf. apply diff_len in Hdf. unfold f. rewrite (Hq' _ _ (Hs2 t ltac:(lia))). cbn. lia.
Qed.
End Inc.
