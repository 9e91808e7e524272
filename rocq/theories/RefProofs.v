From Verif Require Import Base IndexSpec ArrLib IndexProofs4 FillLib RefModel RefSpec.
From Coq Require Import ZifyBool ZifyNat.

(** * Counting. *)
Definition is (p : Z) (q : option Z) : Z := if bool_decide (q = Some p) then 1 else 0.
Lemma is_nonneg p q : 0 <= is p q <= 1.
Proof. unfold is. case_bool_decide; lia. Qed.
Lemma is_None p : is p None = 0.
Proof. done. Qed.
Lemma is_same p : is p (Some p) = 1.
Proof. unfold is. by rewrite bool_decide_true. Qed.
Lemma is_one p q : is p q = 1 <-> q = Some p.
Proof. unfold is. case_bool_decide; split; intros; try done; lia. Qed.
Lemma holds_cons p x l : holds p (x :: l) = is p x + holds p l.
Proof. unfold holds, is. rewrite filter_cons. case_decide; case_bool_decide; try done. rewrite zlen_cons. lia. Qed.
Lemma holds_nil p : holds p [] = 0.
Proof. done. Qed.
Lemma holds_app p l k : holds p (l ++ k) = holds p l + holds p k.
Proof. induction l as [|x l IH]; [rewrite holds_nil; simpl; lia|]. simpl app. rewrite !holds_cons, IH. lia. Qed.
Lemma holds_nonneg p l : 0 <= holds p l.
Proof. apply zlen_nonneg. Qed.
Lemma holds_pos p l : Some p ∈ l <-> 1 <= holds p l.
Proof.
  induction l as [|x l IH]; [rewrite holds_nil; split; [by intros ?%elem_of_nil | lia]|].
  rewrite holds_cons, elem_of_cons, IH. pose proof (is_nonneg p x). pose proof (holds_nonneg p l).
  split; [intros [<- | ?]; [rewrite is_same|]; lia|].
  intros Hx. destruct (decide (is p x = 1)) as [H1|H1]; [left; symmetry; by apply is_one | right; lia].
Qed.
Lemma holds_zset p l i x y : l @ i = Some x -> holds p (zset l i y) = holds p l - is p x + is p y.
Proof.
  revert i. induction l as [|a l IH]; intros i Hi; [by rewrite zlook_nil in Hi|].
  rewrite zlook_cons in Hi. unfold zset in *. destruct (i <? 0) eqn:Hneg.
  { exfalso. destruct (i =? 0) eqn:E; [lia|]. rewrite zlook_neg in Hi; [done|lia]. }
  destruct (i =? 0) eqn:E.
  - assert (i = 0) as -> by lia. simplify_eq. change (Z.to_nat 0) with O. simpl. rewrite !holds_cons. lia.
  - replace (Z.to_nat i) with (Datatypes.S (Z.to_nat (i - 1))) by lia. simpl. rewrite !holds_cons.
    specialize (IH (i - 1) Hi). destruct (i - 1 <? 0) eqn:?; [lia|]. rewrite IH. lia.
Qed.
Lemma holds_replicate p n : holds p (replicate n None) = 0.
Proof. induction n as [|n IH]; [done|]. simpl. by rewrite holds_cons, IH. Qed.
Lemma holds_omap p l : holds p (Some <$> omap id l) = holds p l.
Proof.
  induction l as [|[x|] l IH]; [done| |].
  - change (holds p (Some x :: (Some <$> omap id l)) = holds p (Some x :: l)). by rewrite !holds_cons, IH.
  - change (holds p (Some <$> omap id l) = holds p (None :: l)). by rewrite holds_cons, IH.
Qed.
Lemma holds_rev p l : holds p (rev l) = holds p l.
Proof. induction l as [|x l IH]; [done|]. simpl. rewrite holds_app, !holds_cons, IH, holds_nil. lia. Qed.

Definition share (p : Z) (o : obj) : Z := if o_dead o =? 0 then holds p (o_slots o) else 0.
Lemma share_nonneg p o : 0 <= share p o.
Proof. unfold share. destruct (_ =? _); [apply holds_nonneg | lia]. Qed.
Lemma owners_def s p : owners s p = holds p (Some <$> r_toks s) + holds p (r_vars s) + zsum (share p <$> r_objs s).
Proof. done. Qed.
Lemma owners_nonneg s p : 0 <= owners s p.
Proof.
  rewrite owners_def. pose proof (holds_nonneg p (Some <$> r_toks s)). pose proof (holds_nonneg p (r_vars s)).
  assert (0 <= zsum (share p <$> r_objs s)); [|lia].
  apply zsum_nonneg. intros v (o & -> & _)%elem_of_list_fmap. apply share_nonneg.
Qed.
Lemma zsum_ge l v : (forall v, v ∈ l -> 0 <= v) -> v ∈ l -> v <= zsum l.
Proof.
  induction l as [|x l IH]; intros Hl Hv; [by apply elem_of_nil in Hv|]. simpl.
  assert (0 <= zsum l) by (apply zsum_nonneg; intros; apply Hl; by right).
  assert (0 <= x) by (apply Hl; left).
  apply elem_of_cons in Hv as [-> | Hv]; [change (x <= x + zsum l); lia|].
  specialize (IH (fun v H => Hl v (elem_of_list_further _ _ _ H)) Hv). change (v <= x + zsum l). lia.
Qed.
Lemma owners_slot s p o ob : r_objs s @ o = Some ob -> o_dead ob = 0 -> Some p ∈ o_slots ob -> 1 <= owners s p.
Proof.
  intros Ho Hd Hp. rewrite owners_def. pose proof (holds_nonneg p (Some <$> r_toks s)). pose proof (holds_nonneg p (r_vars s)).
  assert (share p ob <= zsum (share p <$> r_objs s)) as Hs.
  { apply zsum_ge; [intros v (o' & -> & _)%elem_of_list_fmap; apply share_nonneg|].
    apply elem_of_list_fmap. exists ob. split; [done|]. by eapply zlook_elem. }
  unfold share in Hs at 1. rewrite Hd in Hs. change (0 =? 0) with true in Hs. cbv iota in Hs. apply holds_pos in Hp. lia.
Qed.
Lemma owners_setObj s p o ob ob' : r_objs s @ o = Some ob -> owners (setObj s o ob') p = owners s p - share p ob + share p ob'.
Proof.
  intros Ho. rewrite !owners_def. simpl. rewrite fmap_zset, (zsum_zset _ _ (share p ob)); [lia|]. by rewrite zlook_fmap, Ho.
Qed.

(** * The invariant, with pending calls of decrRef. *)
Definition tot (s : rstate) (ps : list Z) (p : Z) : Z := owners s p + holds p (Some <$> ps).
Definition good (s : rstate) (ps : list Z) (p : Z) (ob : obj) : Prop :=
  (o_dead ob = 0 /\ 1 <= tot s ps p /\ o_cnt ob = tot s ps p) \/ (o_dead ob = 1 /\ tot s ps p = 0).
Definition inv (s : rstate) (ps : list Z) : Prop :=
  forall p, match r_objs s @ p with Some ob => good s ps p ob | None => tot s ps p = 0 end.
Lemma tot_nonneg s ps p : 0 <= tot s ps p.
Proof. unfold tot. pose proof (owners_nonneg s p). pose proof (holds_nonneg p (Some <$> ps)). lia. Qed.
Definition alive (s : rstate) (p : Z) : Prop := exists ob, r_objs s @ p = Some ob /\ o_dead ob = 0.
Lemma inv_alive s ps p : inv s ps -> 1 <= tot s ps p -> alive s p.
Proof.
  intros Hi Ht. specialize (Hi p). destruct (r_objs s @ p) as [ob|] eqn:E; [|lia].
  exists ob. split; [done|]. destruct Hi as [[? _]|[_ ?]]; [done|lia].
Qed.
Lemma inv_cnt s ps p ob : inv s ps -> r_objs s @ p = Some ob -> o_dead ob = 0 -> o_cnt ob = tot s ps p.
Proof. intros Hi Ho Hd. specialize (Hi p). rewrite Ho in Hi. destruct Hi as [(_ & _ & ?)|[? _]]; [done|lia]. Qed.
Lemma reach_alive s ps p : inv s ps -> reachable s p -> alive s p /\ 1 <= owners s p.
Proof.
  intros Hi Hr.
  assert (forall q, 1 <= owners s q -> alive s q /\ 1 <= owners s q) as Hq.
  { intros q Hq. split; [|done]. eapply inv_alive; [done|]. unfold tot. pose proof (holds_nonneg q (Some <$> ps)). lia. }
  induction Hr as [p Hp|p Hp|o ob p Hr IH Ho Hp].
  - apply Hq. rewrite owners_def. pose proof (holds_nonneg p (r_vars s)).
    assert (0 <= zsum (share p <$> r_objs s)) by (apply zsum_nonneg; intros v (o & -> & _)%elem_of_list_fmap; apply share_nonneg).
    assert (1 <= holds p (Some <$> r_toks s)) by (apply holds_pos, elem_of_list_fmap; eauto). lia.
  - apply Hq. rewrite owners_def. pose proof (holds_nonneg p (Some <$> r_toks s)).
    assert (0 <= zsum (share p <$> r_objs s)) by (apply zsum_nonneg; intros v (o & -> & _)%elem_of_list_fmap; apply share_nonneg).
    apply holds_pos in Hp. lia.
  - destruct IH as [(ob' & Ho' & Hd) _]. rewrite Ho in Ho'. simplify_eq. apply Hq. by eapply owners_slot.
Qed.
Lemma deref_ok s p ob : r_objs s @ p = Some ob -> o_dead ob = 0 -> deref s p = Ok ob.
Proof. intros Ho Hd. unfold deref. rewrite (rd_ok _ _ _ Ho). cbn [bind]. rewrite Hd. done. Qed.
