From Verif Require Import Base ArrLib GlModel GlProofs2 SerModel DtModel DtSpec IndexProofs4 TreeProofs TreeProofs10 FdProofs6 ConnProofs2 DtProofs.
From Coq Require Import QArith Qabs Lqa ZifyBool ZifyNat.
Local Open Scope Z_scope.

Lemma gives_iff f m i a s : sliceOfField (Some f) m a i = Ok s <-> gives f m i a s.
Proof.
  unfold sliceOfField, baseCheck. split.
  - destruct (Z.eqb_spec (tf_kind f) 5) as [K|K]; [|destruct (Z.eqb_spec (tf_kind f) 7) as [K'|K']; [|destruct (Z.eqb_spec (tf_kind f) 6) as [K''|K'']; [|done]]].
    + destruct a as [|x [|y z]]; try done. destruct (Qltb_spec (tf_end f) (tf_start f)) as [H|H]; [done|]. cbn [ifthrow].
      destruct (Qltb_spec (tf_tol f) (Qabs (tf_start f - tf_end f))) as [H'|H']; [done|]. cbn [ifthrow]. intros [= <-]. constructor; [done|lra|by apply Qnot_lt_le].
    + destruct a as [|x [|y z]]; try done. destruct (Qltb_spec (tf_end f) (tf_start f)) as [H|H]; [done|]. cbn [ifthrow]. intros [= <-]. constructor; [done|lra].
    + destruct a as [|x [|y [|w z]]]; try done. destruct (Qltb_spec (tf_end f) (tf_start f)) as [H|H]; [done|]. cbn [ifthrow]. intros [= <-]. constructor; [done|lra].
  - intros H. destruct H as [a K H1 H2|a K H1|a b K H1]; rewrite K; cbn [Z.eqb Pos.eqb];
      (destruct (Qltb_spec (tf_end f) (tf_start f)) as [H|H]; [lra|]); cbn [ifthrow]; [|done..].
    destruct (Qltb_spec (tf_tol f) (Qabs (tf_start f - tf_end f))) as [H'|H']; [exfalso; by apply (Qlt_not_le _ _ H')|done].
Qed.
Lemma gives_or f m i a : (exists s, sliceOfField (Some f) m a i = Ok s) \/ sliceOfField (Some f) m a i = Throw.
Proof.
  unfold sliceOfField, baseCheck. repeat case_match; subst; unfold ifthrow; repeat case_match; eauto.
Qed.
Lemma gives_fun f m i a s s' : gives f m i a s -> gives f m i a s' -> s = s'.
Proof. rewrite <- !gives_iff. congruence. Qed.

Lemma collect {A} (F : Z -> res A) n : (forall i, 0 <= i < Z.of_nat n -> (exists s, F i = Ok s) \/ F i = Throw) ->
  let r := forZ 0 (Z.of_nat n) (fun i sl => let* s := F i in Ok (sl ++ [s])) [] in
  (exists sl, zlen sl = Z.of_nat n /\ (forall i s, sl @ i = Some s -> F i = Ok s) /\ r = Ok sl) \/
  ((exists i, 0 <= i < Z.of_nat n /\ F i = Throw) /\ r = Throw).
Proof.
  induction n as [|n IH]; intros HF; cbn zeta.
  - left. exists []. split; [done|]. split; [|done]. intros i s Hs. apply zlook_Some_lt in Hs. unfold zlen in Hs. cbn in Hs. lia.
  - replace (Z.of_nat (S n)) with (Z.of_nat n + 1) by lia. rewrite forZ_snoc by lia.
    destruct IH as [(sl & L & G & R)|((i & Hi & G) & R)].
    + intros i Hi. apply HF. lia.
    + cbn zeta in R. rewrite R. cbn [bind]. destruct (HF (Z.of_nat n) ltac:(lia)) as [[s E]|E]; rewrite E; cbn [bind].
      * left. exists (sl ++ [s]). split; [rewrite zlen_app, zlen_cons, zlen_nil; lia|]. split; [|done]. intros i s' Hs'.
        destruct (Z.ltb_spec i (zlen sl)) as [Hi|Hi]; [rewrite zlook_app_l in Hs' by lia; auto|].
        rewrite zlook_app_r, zlook_cons in Hs' by lia. destruct (Z.eqb_spec (i - zlen sl) 0) as [E0|E0]; [|apply zlook_Some_lt in Hs'; unfold zlen in Hs'; cbn in Hs'; lia].
        replace i with (Z.of_nat n) by lia. injection Hs' as <-. done.
      * right. split; [exists (Z.of_nat n); split; [lia|done]|done].
    + cbn zeta in R. rewrite R. right. split; [exists i; split; [lia|done]|done].
Qed.
Lemma after_iff s s' e : isAfterMe s s' e = true <-> (endTime s - e < startTime s')%Q /\ (endTime s - e < endTime s')%Q.
Proof. unfold isAfterMe. by rewrite andb_true_iff, !Qltb_iff. Qed.
Lemma chain_wp sl e s0 : sl @ 0 = Some s0 ->
  wp (forZ 1 (zlen sl) (fun i ref => let* s := rd sl i in throw_if negb (isAfterMe ref s e) >>> Ok s) s0) (fun _ => ascending e sl) (~ ascending e sl).
Proof.
  intros H0. pose proof (zlook_Some_lt _ _ _ H0) as HL.
  apply (wp_forZ (fun i ref => sl @ (i - 1) = Some ref /\ forall j s s', j + 1 < i -> sl @ j = Some s -> sl @ (j + 1) = Some s' ->
    (endTime s - e < startTime s')%Q /\ (endTime s - e < endTime s')%Q)).
  - lia.
  - split; [done|]. intros j s s' Hj Hs. apply zlook_Some_lt in Hs. lia.
  - intros i ref Hi (Hr & HA). destruct (zlook_lt sl i ltac:(lia)) as [s Hs]. rewrite (rd_ok _ _ _ Hs). cbn [bind].
    destruct (isAfterMe ref s e) eqn:E; cbn [negb ifthrow wp].
    + split; [by replace (i + 1 - 1) with i by lia|]. intros j t t' Hj Ht Ht'. destruct (decide (j + 1 = i)) as [E'|E'].
      * assert (j = i - 1) by lia. subst j. replace (i - 1 + 1) with i in Ht' by lia. rewrite Hr in Ht. rewrite Hs in Ht'.
        injection Ht as <-. injection Ht' as <-. by apply after_iff.
      * apply (HA j t t'); [lia|done..].
    + intros HB. specialize (HB (i - 1) ref s Hr). replace (i - 1 + 1) with i in HB by lia. specialize (HB Hs). apply after_iff in HB. congruence.
  - intros _ (_ & HA) i s s' Hs Hs'. apply (HA i s s'); [|done..]. apply zlook_Some_lt in Hs'. lia.
Qed.
Lemma build_run fs ms ars : zlen ms = zlen fs ->
  (newDefTime (Some <$> fs) ms ars = Throw \/ exists d, newDefTime (Some <$> fs) ms ars = Ok d) /\
  forall d, newDefTime (Some <$> fs) ms ars = Ok d <->
    zlen ars = zlen fs /\ slicesOf fs ms ars (d_slices d) /\
    (zlen fs <= 1 -> d_eps d = None) /\
    (forall f0, 2 <= zlen fs -> fs @ 0 = Some f0 -> d_eps d = Some (tf_tol f0) /\ ascending (tf_tol f0) (d_slices d)).
Proof.
  intros Hm. unfold newDefTime. rewrite zlen_fmap. destruct (Z.eqb_spec (zlen fs) (zlen ars)) as [Ha|Ha]; cbn [negb ifthrow].
  2: { split; [by left|]. intros d. split; [done|]. intros (H & _). lia. }
  set (F := fun i => throw_if zlen ars =? 0 >>> (let* f := rd (Some <$> fs) i in let* m := rd ms i in let* a := rd ars i in sliceOfField f m a i)).
  assert (EF : forall i f m a, fs @ i = Some f -> ms @ i = Some m -> ars @ i = Some a -> F i = sliceOfField (Some f) m a i).
  { intros i f m a Hf Hm' Ha'. unfold F. pose proof (zlook_Some_lt _ _ _ Ha'). replace (zlen ars =? 0) with false by lia. cbn [ifthrow].
    rewrite (rd_ok _ i (Some f)) by (rewrite zlook_fmap, Hf; done). cbn [bind]. rewrite (rd_ok _ _ _ Hm'). cbn [bind]. by rewrite (rd_ok _ _ _ Ha'). }
  assert (Hat : forall i, 0 <= i < zlen fs -> exists f m a, fs @ i = Some f /\ ms @ i = Some m /\ ars @ i = Some a).
  { intros i Hi. destruct (zlook_lt fs i Hi) as [f Hf]. destruct (zlook_lt ms i ltac:(lia)) as [m Hm']. destruct (zlook_lt ars i ltac:(lia)) as [a Ha']. eauto 9. }
  destruct (collect F (Z.to_nat (zlen fs))) as [(sl & L & G & R)|((i & Hi & G) & R)].
  { intros i Hi. destruct (Hat i ltac:(lia)) as (f & m & a & Hf & Hm' & Ha'). rewrite (EF i f m a) by done. apply gives_or. }
  - rewrite Z2Nat.id in L, R by apply zlen_nonneg. cbn zeta in R.
    assert (HS : slicesOf fs ms ars sl). { split; [done|]. intros i f m a s Hf Hm' Ha' Hs. apply gives_iff. rewrite <- (EF i f m a) by done. auto. }
    assert (HU : forall sl', slicesOf fs ms ars sl' -> sl' = sl).
    { intros sl' [L' G']. apply zlook_ext_lt; [lia|]. intros i Hi. destruct (Hat i ltac:(lia)) as (f & m & a & Hf & Hm' & Ha').
      destruct (zlook_lt sl' i ltac:(lia)) as [s' Hs']. destruct (zlook_lt sl i ltac:(lia)) as [s Hs]. rewrite Hs, Hs'. f_equal.
      apply (gives_fun f m i a); [by apply (G' i f m a)|]. destruct HS as [_ HS]. by apply (HS i f m a). }
    rewrite (forZ_ext' _ _ _ (fun i sl => let* s := F i in Ok (sl ++ [s]))).
    2: { intros i t Hi. destruct (Hat i ltac:(lia)) as (f & m & a & Hf & Hm' & Ha'). rewrite (EF i f m a) by done.
         pose proof (zlook_Some_lt _ _ _ Ha'). replace (zlen ars =? 0) with false by lia. cbn [ifthrow].
         rewrite (rd_ok _ i (Some f)) by (rewrite zlook_fmap, Hf; done). cbn [bind]. rewrite (rd_ok _ _ _ Hm'). cbn [bind]. by rewrite (rd_ok _ _ _ Ha'). }
    rewrite R. cbn [bind]. destruct (Z.leb_spec (zlen fs) 1) as [H1|H1].
    + split; [eauto|]. intros d. split.
      * intros [= <-]. cbn [d_slices d_eps]. split; [done|]. split; [done|]. split; [done|]. lia.
      * intros (_ & Hs & He & _). f_equal. destruct d as [e sl']. cbn [d_slices d_eps] in *. rewrite (HU _ Hs), He by lia. done.
    + destruct (Hat 0 ltac:(lia)) as (f0 & m & a & Hf & Hm' & Ha'). destruct (zlook_lt sl 0 ltac:(lia)) as [s0 Hs0]. rewrite (rd_ok _ _ _ Hs0). cbn [bind].
      rewrite (rd_ok _ 0 (Some f0)) by (rewrite zlook_fmap, Hf; done). cbn [bind]. rewrite <- L.
      pose proof (chain_wp sl (tf_tol f0) s0 Hs0) as W.
      destruct (forZ 1 (zlen sl) _ s0) as [x| | |]; cbn [wp] in W; try done; cbn [bind].
      * split; [eauto|]. intros d. split.
        -- intros [= <-]. cbn [d_slices d_eps]. split; [lia|]. split; [done|]. split; [lia|]. intros f1 _ H. rewrite Hf in H. injection H as <-. done.
        -- intros (_ & Hs & _ & He). destruct (He f0 ltac:(lia) Hf) as [He' _]. destruct d as [e sl']. cbn [d_slices d_eps] in *. by rewrite (HU _ Hs), He'.
      * split; [by left|]. intros d. split; [done|]. intros (_ & Hs & _ & He). destruct (He f0 ltac:(lia) Hf) as [_ He']. rewrite (HU _ Hs) in He'. done.
  - rewrite Z2Nat.id in R, Hi by apply zlen_nonneg. cbn zeta in R.
    rewrite (forZ_ext' _ _ _ (fun i sl => let* s := F i in Ok (sl ++ [s]))).
    2: { intros i' t Hi'. destruct (Hat i' ltac:(lia)) as (f & m & a & Hf & Hm' & Ha'). rewrite (EF i' f m a) by done.
         pose proof (zlook_Some_lt _ _ _ Ha'). replace (zlen ars =? 0) with false by lia. cbn [ifthrow].
         rewrite (rd_ok _ i' (Some f)) by (rewrite zlook_fmap, Hf; done). cbn [bind]. rewrite (rd_ok _ _ _ Hm'). cbn [bind]. by rewrite (rd_ok _ _ _ Ha'). }
    rewrite R. cbn [bind]. split; [by left|]. intros d. split; [done|]. intros (_ & [L HS] & _).
    destruct (Hat i ltac:(lia)) as (f & m & a & Hf & Hm' & Ha'). destruct (zlook_lt (d_slices d) i ltac:(lia)) as [s Hs].
    specialize (HS i f m a s Hf Hm' Ha' Hs). apply gives_iff in HS. rewrite (EF i f m a) in G by done. congruence.
Qed.
Lemma gives_forward f m i a s : gives f m i a s -> (startTime s <= endTime s)%Q.
Proof. intros H. destruct H; cbn [startTime endTime]; lra. Qed.
Lemma build_forward fs ms ars d : zlen ms = zlen fs -> newDefTime (Some <$> fs) ms ars = Ok d -> forward (d_slices d).
Proof.
  intros Hm H. apply (build_run fs ms ars Hm) in H as (L1 & [L2 HS] & _). intros i s Hs. pose proof (zlook_Some_lt _ _ _ Hs).
  destruct (zlook_lt fs i ltac:(lia)) as [f Hf]. destruct (zlook_lt ms i ltac:(lia)) as [m Hm']. destruct (zlook_lt ars i ltac:(lia)) as [a Ha].
  apply (gives_forward f m i a). by apply (HS i f m a).
Qed.

(** isEqual *)
Lemma equal_iff s o e : sliceEqual s o e = true <-> alike e s o.
Proof.
  destruct s as [m a f t|m a f t0 t1|m a b f t0 t1], o as [m' a' f' t'|m' a' f' u0 u1|m' a' b' f' u0 u1]; cbn [sliceEqual]; unfold sameIds;
    try (split; [done|by inversion 1]); rewrite ?andb_true_iff, ?negb_true_iff, ?Qltb_iff, ?Qltb_no, ?Z.eqb_eq.
  - split; [intros [[[-> ->] ->] H]; by constructor|]. inversion 1; subst; done.
  - split; [intros [[[[-> ->] ->] H] H']; by constructor|]. inversion 1; subst; done.
  - split; [intros [[[[[-> ->] ->] ->] H] H']; by constructor|]. inversion 1; subst; done.
Qed.
Lemma equal_thm e sl e' sl' : exists b, isEqual (DT (Some e) sl) (DT e' sl') = Ok b /\ (b = true <-> Forall2 (alike e) sl sl').
Proof.
  unfold isEqual. cbn [d_slices]. destruct (Z.eqb_spec (zlen sl) (zlen sl')) as [E|E]; cbn [negb].
  2: { exists false. split; [done|]. split; [done|]. intros H%Forall2_length. unfold zlen in E. lia. }
  destruct (forZ_and (fun i b => if negb b then Ok false else let* s := rd sl i in let* o := rd sl' i in let* e := epsOf (DT (Some e) sl) in Ok (sliceEqual s o e))
    (fun i => match sl @ i, sl' @ i with Some s, Some o => sliceEqual s o e | _, _ => false end) (zlen sl) true) as (b & R & Hb).
  - apply zlen_nonneg.
  - intros k b Hk. destruct b; [|done]. cbn [negb andb]. destruct (zlook_lt sl k Hk) as [s Hs]. destruct (zlook_lt sl' k ltac:(lia)) as [o Ho].
    rewrite (rd_ok _ _ _ Hs), (rd_ok _ _ _ Ho), Hs, Ho. done.
  - exists b. split; [done|]. rewrite Hb. split.
    + intros [_ H]. apply Forall2_same_length_lookup_2; [unfold zlen in E; lia|]. intros i s o Hs Ho.
      pose proof (lookup_lt_Some _ _ _ Hs). specialize (H (Z.of_nat i) ltac:(unfold zlen; lia)).
      rewrite (zlook_nat sl), Hs, (zlook_nat sl'), Ho in H. by apply equal_iff.
    + intros H. split; [done|]. intros k Hk. destruct (zlook_lt sl k Hk) as [s Hs]. destruct (zlook_lt sl' k ltac:(lia)) as [o Ho]. rewrite Hs, Ho.
      apply equal_iff. apply (Forall2_lookup_lr _ _ _ (Z.to_nat k) _ _ H); rewrite <- zlook_to_nat by lia; done.
Qed.
Lemma alike_refl e s : (0 < e)%Q -> alike e s s.
Proof.
  intros He. assert (H : forall x, (Qabs (x - x) < e)%Q). { intros x. apply abs_lt. lra. } assert (H' : forall x, (Qabs (x - x) <= e)%Q). { intros x. apply abs_le. lra. }
  destruct s; constructor; auto.
Qed.
