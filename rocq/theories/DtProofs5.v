From Verif Require Import Base ArrLib GlModel GlProofs2 SerModel DtModel DtSpec DtProofs DtProofs2 DtProofs3 DtProofs4.
From Coq Require Import QArith Qabs Lqa ZifyBool ZifyNat.
Local Open Scope Z_scope.

Lemma long_apart e sl : (0 <= e)%Q -> ascending e sl -> (forall i s, sl @ i = Some s -> (startTime s + 4 * e <= endTime s)%Q) -> apart e sl /\ lasting e sl.
Proof.
  intros He HU HL. split.
  - intros i j s s' Hs Hs' Hij. pose proof (zlook_Some_lt _ _ _ Hs). pose proof (zlook_Some_lt _ _ _ Hs').
    assert (HX : forall n t, sl @ (i + 1 + Z.of_nat n) = Some t -> (endTime s + 3 * e < endTime t)%Q).
    { induction n as [|n IH]; intros t Ht.
      - replace (i + 1 + Z.of_nat 0) with (i + 1) in Ht by lia. destruct (HU _ _ _ Hs Ht) as [HB _]. specialize (HL _ _ Ht). lra.
      - pose proof (zlook_Some_lt _ _ _ Ht). destruct (zlook_lt sl (i + 1 + Z.of_nat n) ltac:(lia)) as [u Hu]. specialize (IH u Hu).
        replace (i + 1 + Z.of_nat (S n)) with (i + 1 + Z.of_nat n + 1) in Ht by lia. destruct (HU _ _ _ Hu Ht) as [HB _]. specialize (HL _ _ Ht). lra. }
    destruct (zlook_lt sl (j - 1) ltac:(lia)) as [u Hu]. assert (HE : (endTime s + 3 * e < endTime u)%Q).
    { apply (HX (Z.to_nat (j - 1 - (i + 1)))). by replace (i + 1 + Z.of_nat (Z.to_nat (j - 1 - (i + 1)))) with (j - 1) by lia. }
    specialize (HU (j - 1) u s' Hu). replace (j - 1 + 1) with j in HU by lia. destruct (HU Hs') as [HB _]. lra.
  - intros i m a b f t0 t1 Hs. specialize (HL _ _ Hs). cbn [startTime endTime] in HL. lra.
Qed.
Lemma two_thm e sl tm : apart e sl -> getIdsOnTime (DT (Some e) sl) tm = Throw ->
  (forall s, s ∈ sl -> ~ holds e tm s) \/ exists s, s ∈ sl /\ holds e tm s /\ forall r, ~ answers e tm s r.
Proof.
  intros HA H. destruct (ids_thm e sl tm) as (c & Hc & _ & HT). destruct (proj1 HT H) as [E|[L|(s & Hs & N)]].
  - left. intros s Hs Hh. assert (HX : s ∈ c) by by apply (holding_in e tm sl). rewrite E in HX. inversion HX.
  - pose proof (two_at_most e tm sl c HA Hc). lia.
  - right. exists s. destruct (holding_elem _ _ _ _ _ Hc Hs). done.
Qed.
Lemma slices_of_two f g m m' a a' s s' : gives f m 0 a s -> gives g m' 1 a' s' -> slicesOf [f; g] [m; m'] [a; a'] [s; s'].
Proof.
  intros H1 H2. split; [done|]. intros i f' m1 a1 s1 Hf Hm Ha Hs. pose proof (zlook_Some_lt _ _ _ Hf) as B. unfold zlen in B; cbn in B.
  assert (i = 0 \/ i = 1) as [->| ->] by lia; injection Hf as <-; injection Hm as <-; injection Ha as <-; injection Hs as <-; done.
Qed.

Lemma single_run f m a s : gives f m 0 a s -> newDefTime [Some f] [m] [a] = Ok (DT None [s]).
Proof.
  intros H. change [Some f] with (Some <$> [f]). apply (build_run [f] [m] [a] eq_refl). split; [done|]. split; [|split; [done|unfold zlen; cbn; lia]].
  split; [done|]. intros i f' m1 a1 s1 Hf Hm Ha Hs. pose proof (zlook_Some_lt _ _ _ Hf) as B. unfold zlen in B; cbn in B.
  assert (i = 0) as -> by lia; injection Hf as <-; injection Hm as <-; injection Ha as <-; injection Hs as <-; done.
Qed.
Lemma single_thm f m a s : gives f m 0 a s -> exists d, newDefTime [Some f] [m] [a] = Ok d /\
  (forall tm, getIdsOnTime d tm = UB) /\ isEqual d d = UB /\ getTinySerializationInformation d = UB.
Proof. intros H. exists (DT None [s]). split; [by apply single_run|]. done. Qed.

Lemma over_thm fs compat : (overTimeCheck fs compat = Ok tt \/ overTimeCheck fs compat = Throw) /\
  (overTimeCheck fs compat = Ok tt <->
     (forall f, f ∈ fs -> tf_kind f <> 4) /\ (forall i, 1 <= i < zlen fs -> compat i = true) /\
     (forall i f0 f g, fs @ 0 = Some f0 -> fs @ i = Some f -> fs @ (i + 1) = Some g -> (tf_end f - tf_tol f0 <= tf_start g)%Q)).
Proof.
  unfold overTimeCheck. destruct (existsb (fun f => tf_kind f =? 4) fs) eqn:EX; cbn [ifthrow].
  { split; [by right|]. split; [done|]. intros (H & _). apply existsb_exists in EX as (f & Hf & E). apply elem_of_list_In in Hf. specialize (H f Hf). lia. }
  assert (HK : forall f, f ∈ fs -> tf_kind f <> 4).
  { intros f Hf E. assert (HX : existsb (fun f => tf_kind f =? 4) fs = true); [|congruence]. apply existsb_exists. exists f. split; [by apply elem_of_list_In|lia]. }
  destruct (Z.eqb_spec (zlen fs) 0) as [E0|E0].
  { split; [by left|]. split; [|done]. intros _. split; [done|]. split; [intros i Hi; lia|]. intros i f0 f g H0. apply zlook_Some_lt in H0. lia. }
  pose proof (zlen_nonneg fs). destruct (zlook_lt fs 0 ltac:(lia)) as [f0 Hf0]. rewrite (rd_ok _ _ _ Hf0). cbn [bind].
  set (G := (forall i, 1 <= i < zlen fs -> compat i = true) /\ (forall i f g, fs @ i = Some f -> fs @ (i + 1) = Some g -> (tf_end f - tf_tol f0 <= tf_start g)%Q)).
  assert (W : wp (forZ 1 (zlen fs) (fun i reft => throw_if negb (compat i) >>> let* f := rd fs i in throw_if Qltb (tf_start f) (reft - tf_tol f0) >>> Ok (tf_end f)) (tf_end f0)) (fun _ => G) (~ G)).
  { apply (wp_forZ (fun i reft => (exists f, fs @ (i - 1) = Some f /\ reft = tf_end f) /\ (forall j, 1 <= j < i -> compat j = true) /\
      forall j f g, j + 1 < i -> fs @ j = Some f -> fs @ (j + 1) = Some g -> (tf_end f - tf_tol f0 <= tf_start g)%Q)).
    - lia.
    - split; [by exists f0|]. split; [lia|]. intros j f g Hj Hf. apply zlook_Some_lt in Hf. lia.
    - intros i reft Hi ((p & Hp & ->) & HC & HA). destruct (compat i) eqn:EC; cbn [negb ifthrow].
      2: { cbn [wp]. intros [HG _]. rewrite HG in EC by lia. done. }
      destruct (zlook_lt fs i ltac:(lia)) as [f Hf]. rewrite (rd_ok _ _ _ Hf). cbn [bind].
      destruct (Qltb_spec (tf_start f) (tf_end p - tf_tol f0)) as [HQ|HQ]; cbn [ifthrow wp].
      + intros [_ HG]. specialize (HG (i - 1) p f Hp). replace (i - 1 + 1) with i in HG by lia. specialize (HG Hf). lra.
      + split; [exists f; split; [by replace (i + 1 - 1) with i by lia|done]|]. split.
        * intros j Hj. destruct (decide (j = i)) as [->|N]; [done|]. apply HC. lia.
        * intros j u v Hj Hu Hv. destruct (decide (j + 1 = i)) as [E|E]; [|apply (HA j u v); [lia|done..]].
          assert (j = i - 1) by lia. subst j. replace (i - 1 + 1) with i in Hv by lia. rewrite Hp in Hu. rewrite Hf in Hv. injection Hu as <-. injection Hv as <-. lra.
    - intros reft (_ & HC & HA). split; [done|]. intros i f g Hf Hg. apply (HA i f g); [|done..]. apply zlook_Some_lt in Hg. lia. }
  destruct (forZ 1 (zlen fs) _ (tf_end f0)) as [x| | |]; cbn [wp] in W; try done; cbn [bind].
  - split; [by left|]. split; [|done]. intros _. split; [done|]. destruct W as [W1 W2]. split; [done|]. intros i g0 f g H0. rewrite Hf0 in H0. injection H0 as <-. apply W2.
  - split; [by right|]. split; [done|]. intros (_ & H1 & H2). exfalso. apply W. split; [done|]. intros i f g. by apply H2.
Qed.
Lemma included_thm s o e : (startTime o <= endTime o)%Q ->
  isFullyIncludedInMe s o e = true <-> forall tm, (startTime o <= tm)%Q -> (tm <= endTime o)%Q -> (startTime s - e < tm)%Q /\ (tm < endTime s + e)%Q.
Proof.
  intros H. unfold isFullyIncludedInMe. rewrite andb_true_iff, !Qltb_iff. split; [intros [H1 H2] tm; lra|]. intros HT.
  split; [apply (HT (startTime o)); lra|apply (HT (endTime o)); lra].
Qed.
Lemma before_thm s o e : (startTime s <= endTime s)%Q -> (startTime o <= endTime o)%Q ->
  isBeforeMe s o e = true <-> isAfterMe o s e = true.
Proof. intros H H'. unfold isBeforeMe, isAfterMe. rewrite !andb_true_iff, !Qltb_iff. split; intros; split; lra. Qed.
