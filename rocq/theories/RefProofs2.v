From Verif Require Import Base IndexSpec ArrLib IndexProofs3 IndexProofs4 FillLib RefModel RefSpec RefProofs.
From Coq Require Import ZifyBool ZifyNat.

(** * decrRef. *)
Definition same_shape (s s' : rstate) : Prop :=
  r_vars s' = r_vars s /\ r_toks s' = r_toks s /\ o_slots <$> r_objs s' = o_slots <$> r_objs s.
Lemma same_shape_refl s : same_shape s s.
Proof. done. Qed.
Lemma same_shape_trans s s1 s2 : same_shape s s1 -> same_shape s1 s2 -> same_shape s s2.
Proof. unfold same_shape. intuition congruence. Qed.
Lemma same_shape_obj s s' o ob : same_shape s s' -> r_objs s @ o = Some ob ->
  exists ob', r_objs s' @ o = Some ob' /\ o_slots ob' = o_slots ob.
Proof.
  intros (_ & _ & Hs) Ho. assert ((o_slots <$> r_objs s') @ o = Some (o_slots ob)) as H by (rewrite Hs, zlook_fmap, Ho; done).
  rewrite zlook_fmap in H. destruct (r_objs s' @ o) as [ob'|]; [|done]. exists ob'. split; [done|]. simpl in H. congruence.
Qed.
Lemma same_shape_reach s s' p : same_shape s s' -> reachable s p -> reachable s' p.
Proof.
  intros Hs Hr. induction Hr as [p Hp|p Hp|o ob p Hr IH Ho Hp].
  - apply reach_tok. destruct Hs as (_ & -> & _). done.
  - apply reach_var. destruct Hs as (-> & _). done.
  - destruct (same_shape_obj _ _ _ _ Hs Ho) as (ob' & Ho' & Hsl). eapply reach_slot; [exact IH|exact Ho'|by rewrite Hsl].
Qed.
Lemma same_shape_setObj s o ob c d : r_objs s @ o = Some ob -> same_shape s (setObj s o (Obj c d (o_slots ob))).
Proof.
  intros Ho. split; [done|]. split; [done|]. simpl. rewrite fmap_zset. simpl.
  apply zlook_ext. intros i. rewrite zlook_zset by (rewrite zlen_fmap; by eapply zlook_Some_lt). case_match eqn:E; [|done].
  assert (i = o) as -> by lia. by rewrite zlook_fmap, Ho.
Qed.
Definition lv (o : obj) : Z := if o_dead o =? 0 then zlen (o_slots o) else 0.
Lemma lv_nonneg o : 0 <= lv o.
Proof. unfold lv. pose proof (zlen_nonneg (o_slots o)). case_match; lia. Qed.
Lemma live_le (l : list obj) : zsum (lv <$> l) <= zlen (concat (o_slots <$> l)).
Proof.
  induction l as [|o l IH]; [done|]. change (concat (o_slots <$> (o :: l))) with (o_slots o ++ concat (o_slots <$> l)). rewrite zlen_app.
  change (zsum (lv <$> (o :: l))) with (lv o + zsum (lv <$> l)). unfold lv at 1. pose proof (zlen_nonneg (o_slots o)).
  case_match; lia.
Qed.
Lemma zlen_omap_le {A} (l : list (option A)) : zlen (omap id l) <= zlen l.
Proof.
  induction l as [|[x|] l IH]; [done| |].
  - change (omap id (Some x :: l)) with (x :: omap id l). rewrite !zlen_cons. lia.
  - change (omap id (None :: l)) with (omap id l). rewrite zlen_cons. lia.
Qed.

Lemma tot_cons s p ps q : tot s (p :: ps) q = tot s ps q + is q (Some p).
Proof. unfold tot. rewrite fmap_cons, holds_cons. lia. Qed.

Lemma decrRefs_ok fuel s ps : inv s ps -> zlen ps + zsum (lv <$> r_objs s) <= Z.of_nat fuel ->
  exists s', decrRefs fuel s ps = Ok s' /\ inv s' [] /\ same_shape s s'.
Proof.
  revert s ps. induction fuel as [|fuel IH]; intros s ps Hi Hf.
  - destruct ps as [|p ps]; [exists s; auto using same_shape_refl|].
    exfalso. rewrite zlen_cons in Hf. pose proof (zlen_nonneg ps).
    assert (0 <= zsum (lv <$> r_objs s)) by (apply zsum_nonneg; intros v (o & -> & _)%elem_of_list_fmap; apply lv_nonneg). lia.
  - destruct ps as [|p ps]; [exists s; auto using same_shape_refl|].
    destruct (inv_alive s (p :: ps) p Hi) as (ob & Ho & Hd).
    { rewrite tot_cons, is_same. pose proof (tot_nonneg s ps p). lia. }
    pose proof (inv_cnt _ _ _ _ Hi Ho Hd) as Hc. rewrite tot_cons, is_same in Hc.
    cbn [decrRefs]. rewrite (deref_ok _ _ _ Ho Hd). cbn [bind].
    assert (forall s1, r_objs s1 @ p <> None -> (forall q, q <> p -> r_objs s1 @ q = r_objs s @ q) ->
      forall ps1, (forall q, tot s1 ps1 q = tot s ps q) ->
      (forall ob', r_objs s1 @ p = Some ob' -> good s ps p ob') -> inv s1 ps1) as Hinv.
    { intros s1 Hn Hq ps1 Ht Hg q. destruct (decide (q = p)) as [-> | Hne].
      - destruct (r_objs s1 @ p) as [ob'|]; [|done]. specialize (Hg _ eq_refl). unfold good in *. by rewrite Ht.
      - rewrite (Hq _ Hne). specialize (Hi q). unfold good in *. rewrite Ht.
        rewrite tot_cons in Hi. replace (is q (Some p)) with 0 in Hi by (unfold is; rewrite bool_decide_false; congruence).
        rewrite Z.add_0_r in Hi. exact Hi. }
    assert (0 <= p < zlen (r_objs s)) as Hp by (by eapply zlook_Some_lt).
    destruct (o_cnt ob - 1 =? 0) eqn:E.
    + set (s1 := setObj s p (Obj (o_cnt ob - 1) (o_dead ob + 1) (o_slots ob))).
      assert (forall q, tot s1 (omap id (rev (o_slots ob)) ++ ps) q = tot s ps q) as Ht.
      { intros q. unfold tot, s1. rewrite (owners_setObj _ _ _ _ _ Ho), fmap_app, holds_app, holds_omap, holds_rev.
        unfold share. simpl. rewrite Hd. change (0 =? 0) with true. change (0 + 1 =? 0) with false. cbv iota. lia. }
      destruct (IH s1 (omap id (rev (o_slots ob)) ++ ps)) as (s' & Hs' & Hi' & Hsh).
      * apply Hinv; [| |done|].
        -- simpl. rewrite zlook_zset by done. case_match; [done|]. by rewrite Ho.
        -- intros q Hq. simpl. rewrite zlook_zset by done. case_match; [|done]. lia.
        -- intros ob' Ho'. simpl in Ho'. rewrite zlook_zset in Ho' by done. case_match; [|lia]. simplify_eq. right. simpl. rewrite Hd. lia.
      * rewrite zlen_app. pose proof (zlen_omap_le (rev (o_slots ob))) as Hle.
        unfold zlen in Hle at 2. rewrite rev_length in Hle. fold (zlen (o_slots ob)) in Hle.
        simpl. rewrite fmap_zset, (zsum_zset _ _ (lv ob)); [|by rewrite zlook_fmap, Ho].
        rewrite zlen_cons in Hf. unfold lv at 2 3. simpl. rewrite Hd. change (0 =? 0) with true. change (0 + 1 =? 0) with false. cbv iota. lia.
      * exists s'. split; [done|]. split; [done|]. eapply same_shape_trans; [|exact Hsh]. by apply same_shape_setObj.
    + set (s1 := setObj s p (Obj (o_cnt ob - 1) (o_dead ob) (o_slots ob))).
      destruct (IH s1 ps) as (s' & Hs' & Hi' & Hsh).
      * apply Hinv.
        -- simpl. rewrite zlook_zset by done. case_match; [done|]. by rewrite Ho.
        -- intros q Hq. simpl. rewrite zlook_zset by done. case_match; [|done]. lia.
        -- intros q. unfold tot, s1. rewrite (owners_setObj _ _ _ _ _ Ho). unfold share. simpl. lia.
        -- intros ob' Ho'. simpl in Ho'. rewrite zlook_zset in Ho' by done. case_match; [|lia]. simplify_eq. left. simpl.
           pose proof (tot_nonneg s ps p). lia.
      * simpl. rewrite fmap_zset, (zsum_zset _ _ (lv ob)); [|by rewrite zlook_fmap, Ho].
        rewrite zlen_cons in Hf. unfold lv at 2 3. simpl. lia.
      * exists s'. split; [done|]. split; [done|]. eapply same_shape_trans; [|exact Hsh]. by apply same_shape_setObj.
Qed.
Lemma decrRef_ok s p : inv s [p] -> exists s', decrRef s p = Ok s' /\ inv s' [] /\ same_shape s s'.
Proof.
  intros Hi. apply decrRefs_ok; [done|]. rewrite zlen_cons, zlen_nil. pose proof (live_le (r_objs s)). unfold zlen in *. unfold decrFuel. lia.
Qed.
