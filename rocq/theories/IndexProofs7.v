From Verif Require Import Base DataArray ArrLib StdModel SlicesSpec SlicesModel SlicesProofs RenumSpec RenumProofs SearchSpec StdProofs SearchProofs IndexSpec IndexModel FillLib IndexProofs IndexProofs2.
From Coq Require Import ZifyBool ZifyNat.

Section ranges_in_list.
  Context (d li : da Z) (Ha : da_alloc d = true) (Hc : da_nc d = 1) (Hal : da_alloc li = true) (Hcl : da_nc li = 1).
  Notation off := (da_vals d). Notation ids := (da_vals li).
  Context (Hoff : increasing off) (Hids : increasing ids) (Hne : 0 < zlen off) (Hend : ~ ends_inside off ids).
  Notation n := (zlen ids).

  (** The matching loop: [ids] from [tup] holds the integers from [o] on. *)
  Lemma match_wp offp o o1 tup : off @ offp = Some o -> off @ (offp + 1) = Some o1 -> ids @ tup = Some o ->
    wp (matchRange ids o1 (Datatypes.S (length ids + 1)) o tup)
      (fun '(i, tup') => o < i <= o1 /\ tup' = tup + (i - o) /\ tup' <= n /\ (forall k, 0 <= k < i - o -> ids @ (tup + k) = Some (o + k)) /\
         (i < o1 -> i ∉ ids)) False.
  Proof.
    intros Ho Ho1 Ht. apply zlook_Some_lt in Ht as Htl. assert (o < o1) by (eapply Hoff; [|exact Ho|exact Ho1]; lia). unfold matchRange.
    apply (wp_whileM (fun '(i, tup') => o <= i <= o1 /\ tup' = tup + (i - o) /\ tup' <= n /\ forall k, 0 <= k < i - o -> ids @ (tup + k) = Some (o + k)) (fun '(_, t) => Z.to_nat (n - t))).
    - split; [lia|]. split; [lia|]. split; [lia|]. intros; lia.
    - unfold zlen in *. lia.
    - intros [i t] (Hi & -> & Htn & Hk). destruct (Z.ltb_spec i o1) as [Hlt|Hge].
      2: { simpl. assert (i = o1) by lia. subst i. split; [lia|]. split; [lia|]. split; [lia|]. split; [done|lia]. }
      wstep. destruct (decide (tup + (i - o) = n)) as [E|E].
      { exfalso. apply Hend. exists offp, o, o1, (i - 1). assert (o < i). { destruct (decide (i = o)) as [->|]; [lia|lia]. }
        split; [done|]. split; [done|]. split; [rewrite <- E; replace (tup + (i - o) - 1) with (tup + (i - o - 1)) by lia; rewrite Hk by lia; f_equal; lia|].
        split; [lia|]. split; [lia|]. intros x Hx. apply elem_of_zlook. exists (tup + (x - o)). rewrite Hk by lia. f_equal. lia. }
      wstep; [lia|]. intros v Hv. simpl. replace (tup + (i - o) =? n) with false by lia. rewrite andb_true_r. destruct (Z.eqb_spec v i) as [->|Hvi].
      + simpl. split; [|lia]. split; [lia|]. split; [lia|]. split; [lia|]. intros k Hk'. destruct (decide (k = i - o)) as [->|]; [rewrite Hv; f_equal; lia|apply Hk; lia].
      + assert (o < i). { destruct (decide (i = o)) as [->|]; [|lia]. rewrite Z.sub_diag, Z.add_0_r in Hv. congruence. }
        split; [lia|]. split; [lia|]. split; [lia|]. split; [done|]. intros _ Hin. apply elem_of_zlook in Hin as [k Hk'].
        assert (Hprev : ids @ (tup + (i - o - 1)) = Some (i - 1)) by (rewrite Hk by lia; f_equal; lia).
        destruct (Z.lt_trichotomy k (tup + (i - o))) as [L|[->|L]].
        * destruct (decide (k = tup + (i - o - 1))) as [->|]; [assert (i = i - 1) by congruence; lia|]. assert (i < i - 1); [|lia]. eapply Hids; [|exact Hk'|exact Hprev]. lia.
        * congruence.
        * assert (v < i) by (eapply Hids; [|exact Hv|exact Hk']; lia). assert (i - 1 < v) by (eapply Hids; [|exact Hprev|exact Hv]; lia). lia.
  Qed.

  Lemma full_snoc j r P Q : enumerates P r -> (forall x, P x -> x < j) -> (forall x, Q x <-> P x \/ x = j) -> enumerates Q (r ++ [j]).
  Proof.
    intros [Hi He] Hlt HQ. split.
    - intros a b x y Hab Hx Hy. apply zlook_Some_lt in Hy as Hyl. apply zlook_Some_lt in Hx as Hxl. rewrite zlen_app in *. change (zlen [j]) with 1 in *.
      rewrite (zlook_app_l r) in Hx by lia. rewrite zlook_app in Hy. destruct (Z.ltb_spec b (zlen r)); [by eapply (Hi a b)|].
      assert (b = zlen r) as -> by lia. rewrite Z.sub_diag in Hy. change ([j] @ 0) with (Some j) in Hy. injection Hy as <-. apply Hlt, He. eapply zlook_elem; eauto.
    - intros x. rewrite elem_of_app, elem_of_list_singleton, He, HQ. done.
  Qed.
  Lemma enum_ext P Q r : (forall x, P x <-> Q x) -> enumerates P r -> enumerates Q r.
  Proof. intros H [H1 H2]. split; [done|]. intros x. rewrite H2. apply H. Qed.

  Lemma rangesInList_ok : exists ret0 ret1 blks, findIdsRangesInListOfIds d (Some li) = Ok (ret0, ret1) /\
    enumerates (range_full off ids) ret0 /\ Forall2 (id_block off) ret0 blks /\ ret1 = concat blks.
  Proof.
    unfold findIdsRangesInListOfIds, checkAllocated, checkOneComp. rewrite Ha, Hc, Hal, Hcl. cbn [negb ifthrow Z.eqb Pos.eqb].
    match goal with |- exists ret0 ret1 blks, ?p = _ /\ _ => enough (Hw : wp p (fun '(r0, r1) => enumerates (range_full off ids) r0 /\ exists blks, Forall2 (id_block off) r0 blks /\ r1 = concat blks) False) end.
    { apply wp_ok in Hw as ([r0 r1] & Hr & H1 & blks & H2 & H3). by exists r0, r1, blks. }
    wstep. pose proof (zlen_nonneg ids).
    apply (wp_whileM (fun '(tup, offp, r0, r1) => 0 <= tup <= n /\ 0 <= offp <= zlen off - 1 /\
        (forall k v j o, k < tup -> ids @ k = Some v -> offp <= j -> off @ j = Some o -> range_full off ids j -> v < o) /\
        enumerates (fun j => j < offp /\ range_full off ids j) r0 /\ exists blks, Forall2 (id_block off) r0 blks /\ r1 = concat blks)
      (fun '(tup, offp, _, _) => Z.to_nat (n - tup + (zlen off - 1 - offp)))).
    - split; [lia|]. split; [lia|]. split; [intros k v j o Hk Hv; apply zlook_Some_lt in Hv; lia|]. split.
      + split; [intros i j x y _ Hx; rewrite zlook_nil in Hx; done|]. intros x. split; [intros Hx; by apply elem_of_nil in Hx|]. intros [Hx (a & b & Hxa & _)]. apply zlook_Some_lt in Hxa. lia.
      + exists []. split; [constructor|done].
    - unfold zlen in *. lia.
    - intros [[[tup offp] r0] r1] (Htup & Hoffp & Hinv & Hen & blks & Hbl & ->). cbn [wp]. destruct (negb (tup =? n) && negb (offp =? zlen off - 1)) eqn:E.
      2: { simpl. split; [|by exists blks]. eapply enum_ext; [|exact Hen]. intros j. simpl. split; [tauto|]. intros Hf. split; [|done]. pose proof Hf as (a & b & Hja & Hjb & Hall).
           apply zlook_Some_lt in Hjb as Hjl. destruct (Z.lt_ge_cases j offp); [done|]. assert (tup = n) by lia. assert (a < b) by (eapply Hoff; [|exact Hja|exact Hjb]; lia).
           assert (Hin : a ∈ ids) by (apply Hall; lia). apply elem_of_zlook in Hin as [k Hk]. apply zlook_Some_lt in Hk as Hkl. specialize (Hinv k a j a ltac:(lia) Hk ltac:(lia) Hja Hf). lia. }
      wstep. wstep; [lia|]. intros t Ht. wstep. wstep; [lia|]. intros o Ho. destruct (zlook_lt off (offp + 1)) as [o1 Ho1]; [lia|].
      assert (Ho1lt : o < o1) by (eapply Hoff; [|exact Ho|exact Ho1]; lia).
      assert (Hmono : forall j x, offp < j -> off @ j = Some x -> o1 <= x).
      { intros j x Hj Hx. destruct (decide (j = offp + 1)) as [->|]; [assert (x = o1) by congruence; lia|]. assert (o1 < x) by (eapply Hoff; [|exact Ho1|exact Hx]; lia). lia. }
      destruct (Z.eqb_spec t o) as [->|Hto]; [|destruct (Z.ltb_spec t o) as [Hlt|Hge]].
      + rewrite (rd_ok _ _ _ Ho1). cbn [bind]. wstep. eapply wp_mono; [apply (match_wp offp o o1 tup); done| |done]. intros [i tup'] (Hi & Htup' & Htn & Hseq & Hni). simpl.
        assert (Hbefore : forall k v, k < tup' -> ids @ k = Some v -> v < i).
        { intros k v Hk Hv. assert (Hlast : ids @ (tup + (i - o - 1)) = Some (i - 1)) by (rewrite Hseq by lia; f_equal; lia).
          destruct (decide (k = tup + (i - o - 1))) as [->|]; [assert (v = i - 1) by congruence; lia|]. assert (v < i - 1) by (eapply Hids; [|exact Hv|exact Hlast]; lia). lia. }
        destruct (Z.eqb_spec i o1) as [->|Hio].
        * replace ((tup' - (o1 - o) <? 0) || (n <? tup')) with false by lia. cbn [ubif wp]. assert (Hfull : range_full off ids offp).
          { exists o, o1. do 2 (split; [done|]). intros v Hv. apply elem_of_zlook. exists (tup + (v - o)). rewrite Hseq by lia. f_equal; lia. }
          split; [|lia]. split; [lia|]. split; [lia|]. split; [|split].
          -- intros k v j x Hk Hv Hj Hx _. pose proof (Hbefore k v Hk Hv). pose proof (Hmono j x ltac:(lia) Hx). lia.
          -- eapply full_snoc; [exact Hen|tauto|]. intros x. simpl. split; [|intros [[? ?]| ->]; (split; [lia|done])]. intros [Hx Hf]. destruct (decide (x = offp)); [by right|left; split; [lia|done]].
          -- exists (blks ++ [seqZ o (o1 - o)]). rewrite concat_snoc. split.
             ++ apply Forall2_app; [done|]. constructor; [|constructor]. exists o, o1. split; [done|]. split; [done|]. split; [lia|done].
             ++ f_equal. replace (tup' - (o1 - o)) with tup by lia. change (take (Z.to_nat (o1 - o)) (drop (Z.to_nat tup) ids)) with (take (Z.to_nat (o1 - o)) (drop (Z.to_nat tup) ids)).
                apply zlook_ext_lt; [rewrite zlen_take, zlen_drop, zlen_seqZ; lia|]. intros k Hk. rewrite zlen_take, zlen_drop in Hk. rewrite zlook_take, zlook_drop by lia. rewrite zlook_seqZ by lia.
                replace (k + Z.of_nat (Z.to_nat tup)) with (tup + k) by lia. rewrite ?Z2Nat.id by lia. rewrite <- Hseq by lia. f_equal; lia.
        * split; [|lia]. split; [lia|]. split; [lia|]. split; [|split; [done|by exists blks]].
          intros k v j x Hk Hv Hj Hx Hf. destruct (decide (j = offp)) as [->|].
          -- exfalso. apply Hni; [lia|]. destruct Hf as (a & b & Hja & Hjb & Hall). assert (a = o /\ b = o1) as [-> ->] by (split; congruence). apply Hall. lia.
          -- pose proof (Hbefore k v Hk Hv). pose proof (Hmono j x ltac:(lia) Hx). lia.
      + cbn [wp]. split; [|lia]. split; [lia|]. split; [lia|]. split; [|split; [done|by exists blks]]. intros k v j x Hk Hv Hj Hx Hf.
        destruct (decide (k = tup)) as [->|]; [|apply (Hinv k v j x); try done; lia]. assert (v = t) as -> by congruence. destruct (decide (j = offp)) as [->|]; [assert (x = o) by congruence; lia|].
        pose proof (Hmono j x ltac:(lia) Hx). lia.
      + cbn [wp]. split; [|lia]. split; [lia|]. split; [lia|]. split; [|split; [|by exists blks]].
        * intros k v j x Hk Hv Hj Hx Hf. apply (Hinv k v j x); try done. lia.
        * eapply enum_ext; [|exact Hen]. intros j. simpl. split; [intros [? ?]; split; [lia|done]|]. intros [Hj Hf]. split; [|done]. destruct (decide (j = offp)) as [->|]; [|lia]. exfalso.
          pose proof Hf as (a & b & Hja & Hjb & Hall). assert (a = o /\ b = o1) as [-> ->] by (split; congruence). assert (Hin : o ∈ ids) by (apply Hall; lia). apply elem_of_zlook in Hin as [k Hk].
          destruct (Z.lt_ge_cases k tup); [specialize (Hinv k o offp o ltac:(lia) Hk ltac:(lia) Ho Hf); lia|]. destruct (decide (k = tup)) as [->|]; [congruence|]. assert (t < o) by (eapply Hids; [|exact Ht|exact Hk]; lia). lia.
  Qed.
End ranges_in_list.
Lemma rangesInList_refuted : exists off ids, increasing off /\ increasing ids /\ findIdsRangesInListOfIds (vec off) (Some (vec ids)) = UB.
Proof.
  exists [0; 3], [0; 1]. split; [apply increasing_SS; repeat constructor; lia|]. split; [apply increasing_SS; repeat constructor; lia|]. vm_compute. done.
Qed.
