From stdpp Require Import gmap.
From Verif Require Import Base DataArray ArrLib StdModel SearchSpec StdProofs SearchModel RenumModel RenumSpec RenumProofs RenumProofs2 SearchProofs SetsSpec SetsModel SetsProofs.
From Coq Require Import ZifyBool ZifyNat.

Lemma da_wf_vec {A} (l : list A) : da_wf (vec l).
Proof. split; [simpl; lia|]. exists (zlen l). split; [apply zlen_nonneg|]. simpl; lia. Qed.

(** * Two generic loops *)
Lemma mapLoop_wp l n (T : Prop) : n = zlen l ->
  wp (forZ 0 n (fun i (m : gmap Z Z) => let* v := rd l i in Ok (<[v := i]> m)) ∅) (fun m => forall v i, m !! v = Some i <-> last_pos l v i) T.
Proof.
  intros ->. destruct (invertOpt_ok (vec l)) as (m & Hm & H); [done..|].
  unfold invertArrayN2O2O2NOptimized, checkAllocated, checkOneComp in Hm. simpl in Hm. rewrite da_nt_vec in Hm. rewrite Hm. done.
Qed.

Lemma mapfill_wp {A B} (l : list A) (f : A -> option B) n (body : Z -> list (option B) -> res (list (option B))) d0 (Q : list (option B) -> Prop) (T : Prop) :
  n = zlen l -> zlen d0 = n ->
  (forall i v ret, l @ i = Some v -> zlen ret = n -> body i ret = match f v with Some k => wrc ret i k | None => Throw end) ->
  (forall k, zlen k = n -> (forall i v, l @ i = Some v -> k @ i = f v) -> Q (Some <$> k)) ->
  ((exists v, v ∈ l /\ f v = None) -> T) ->
  wp (forZ 0 n body d0) Q T.
Proof.
  intros -> Hd0 Hbody HQ HT.
  apply (wp_forZ (fun i ret => zlen ret = zlen l /\ forall k v, k < i -> l @ k = Some v -> exists b, f v = Some b /\ ret @ k = Some (Some b))).
  - apply zlen_nonneg.
  - split; [done|]. intros k v Hk Hv. apply zlook_Some_lt in Hv. lia.
  - intros i ret Hi [Hl Hr]. destruct (zlook_lt l i Hi) as [v Hv]. rewrite (Hbody i v) by done. destruct (f v) as [b|] eqn:E.
    + wstep; [lia|]. split; [by rewrite zlen_zset|]. intros k w Hk Hw. rewrite zlook_zset by lia. destruct (Z.eqb_spec k i) as [->|].
      * exists b. split; [congruence|done].
      * apply Hr; [lia|done].
    + simpl. apply HT. exists v. split; [eapply zlook_elem; eauto|done].
  - intros ret [Hl Hr]. destruct (all_some ret) as [k ->].
    { intros i Hi. destruct (zlook_lt l i) as [v Hv]; [lia|]. destruct (Hr i v) as (b & _ & Hb); [lia|done|]. eauto. }
    rewrite zlen_fmap in Hl. apply HQ; [done|]. intros i v Hv. apply zlook_Some_lt in Hv as ?. destruct (Hr i v) as (b & Hb & Hb'); [lia|done|].
    rewrite zlook_fmap in Hb'. destruct (k @ i); simpl in Hb'; congruence.
Qed.

Lemma not_last_pos_None (m : gmap Z Z) l v : (forall v i, m !! v = Some i <-> last_pos l v i) -> m !! v = None <-> v ∉ l.
Proof.
  intros Hm. split.
  - intros Hn Hv. destruct (last_pos_exists l v Hv) as [i Hi]. apply Hm in Hi. congruence.
  - intros Hv. destruct (m !! v) eqn:E; [|done]. apply Hm in E as [E _]. exfalso. apply Hv. eapply zlook_elem; eauto.
Qed.

(** * buildPermutationArr, indicesOfSubPart, findIdForEach *)
Lemma buildPerm_wp l o : zlen l = zlen o ->
  wp (buildPermutationArr (vec l) (vec o))
     (fun r => exists k, r = Some <$> k /\ zlen k = zlen o /\ forall i v, o @ i = Some v -> exists p, k @ i = Some p /\ last_pos l v p)
     (exists v, v ∈ o /\ v ∉ l).
Proof.
  intros Hl. unfold buildPermutationArr, checkAllocated. simpl. rewrite !da_nt_vec. unfold ifthrow. replace (zlen l =? zlen o) with true by lia. cbn [negb].
  wstep. apply wp_alloc; [apply zlen_nonneg|lia|]. wstep. eapply wp_mono; [apply mapLoop_wp; done| |done]. simpl. intros m Hm.
  apply (mapfill_wp o (fun v => m !! v)).
  - done.
  - rewrite zlen_replicate, Z.mul_1_l. fold (zlen (malloc Z (zlen l))). rewrite zlen_malloc. pose proof (zlen_nonneg l). lia.
  - intros i v ret Hv _. rewrite (rd_ok _ _ _ Hv). simpl. destruct (m !! v); done.
  - intros k Hk Hki. exists k. split; [done|]. split; [lia|]. intros i v Hv. apply zlook_Some_lt in Hv as ?. specialize (Hki i v Hv).
    destruct (zlook_lt k i) as [p Hp]; [lia|]. exists p. split; [done|]. apply Hm. congruence.
  - intros (v & Hv & Hn). exists v. split; [done|]. by apply (not_last_pos_None m).
Qed.
Lemma buildPerm_ok l o : zlen l = zlen o -> (forall v, v ∈ o -> v ∈ l) ->
  exists k, buildPermutationArr (vec l) (vec o) = Ok (Some <$> k) /\ zlen k = zlen o /\
    forall i v, o @ i = Some v -> exists p, k @ i = Some p /\ l @ p = Some v.
Proof.
  intros Hl Hin. pose proof (buildPerm_wp l o Hl) as H. destruct (buildPermutationArr _ _) as [r| | |]; simpl in H; try tauto.
  - destruct H as (k & -> & Hk & H). exists k. split; [done|]. split; [done|]. intros i v Hv. destruct (H i v Hv) as (p & Hp & Hlp & _). eauto.
  - destruct H as (v & Hv & Hn). exfalso. auto.
Qed.
Lemma buildPerm_throw d o : buildPermutationArr d o = Throw <-> bad_shape d \/ bad_shape o \/ da_nt d <> da_nt o \/ exists v, v ∈ da_vals o /\ v ∉ da_vals d.
Proof.
  destruct (goodb d) eqn:E1; [destruct (goodb o) eqn:E2|].
  - unfold goodb in *. apply andb_true_iff in E1 as [A1 C1], E2 as [A2 C2]. apply Z.eqb_eq in C1, C2.
    assert (d = vec (da_vals d)) as -> by (destruct d; simpl in *; subst; done).
    assert (o = vec (da_vals o)) as -> by (destruct o; simpl in *; subst; done). simpl (da_vals (vec _)).
    generalize (da_vals d) (da_vals o). clear. intros l o. rewrite !da_nt_vec. destruct (decide (zlen l = zlen o)) as [Hl|Hl].
    + pose proof (buildPerm_wp l o Hl) as H. destruct (buildPermutationArr _ _) as [r| | |]; simpl in H; try done.
      * split; [done|]. intros [[?|?]|[[?|?]|[?|(v & Hv & Hn)]]]; try done. destruct H as (k & -> & Hk & H). apply elem_of_zlook in Hv as [i Hi].
        destruct (H i v Hi) as (p & _ & Hp & _). exfalso. apply Hn. eapply zlook_elem; eauto.
      * split; [|done]. intros _. right; right; right. done.
    + split; [intros _; right; right; left; done|]. intros _. unfold buildPermutationArr, checkAllocated. simpl. rewrite !da_nt_vec.
      replace (zlen l =? zlen o) with false by lia. done.
  - split; [intros _; right; left; by apply goodb_false|]. intros _. unfold goodb, buildPermutationArr, checkAllocated, ifthrow in *.
    apply andb_true_iff in E1 as [A1 C1]. rewrite A1, C1. simpl. destruct (da_alloc o), (da_nc o =? 1); simpl in *; done.
  - split; [intros _; left; by apply goodb_false|]. intros _. unfold goodb, buildPermutationArr, checkAllocated, ifthrow in *.
    destruct (da_alloc d), (da_nc d =? 1); simpl in *; done.
Qed.

Lemma map_size (m : gmap Z Z) l : (forall v i, m !! v = Some i <-> last_pos l v i) -> Z.of_nat (size m) = zlen (set_of l).
Proof.
  intros Hm. rewrite <- size_dom. assert (dom m = list_to_set (set_of l)) as ->.
  { apply set_eq. intros x. rewrite elem_of_dom, elem_of_list_to_set, elem_of_set_of. split.
    - intros [i Hi]. apply Hm in Hi as [Hi _]. eapply zlook_elem; eauto.
    - intros Hx. destruct (last_pos_exists l x Hx) as [i Hi]. exists i. by apply Hm. }
  rewrite size_list_to_set by apply SS_NoDup, SS_set_of. done.
Qed.
Lemma indices_wp l p :
  wp (indicesOfSubPart (vec l) (vec p))
     (fun r => NoDup l /\ exists k, r = Some <$> k /\ zlen k = zlen p /\ forall i v, p @ i = Some v -> exists j, k @ i = Some j /\ l @ j = Some v)
     (~ NoDup l \/ exists v, v ∈ p /\ v ∉ l).
Proof.
  unfold indicesOfSubPart, checkAllocated. simpl. rewrite !da_nt_vec.
  wstep. apply wp_alloc; [apply zlen_nonneg|lia|]. wstep. eapply wp_mono; [apply mapLoop_wp; done| |done]. simpl. intros m Hm.
  rewrite (map_size m l Hm). wstep.
  { intros E. left. rewrite <- set_of_NoDup. lia. }
  intros E. assert (Hnd : NoDup l) by (apply set_of_NoDup; lia).
  apply (mapfill_wp p (fun v => m !! v)).
  - done.
  - rewrite Z.mul_1_l, zlen_malloc. pose proof (zlen_nonneg p). lia.
  - intros i v ret Hv _. rewrite (rd_ok _ _ _ Hv). simpl. destruct (m !! v); done.
  - intros k Hk Hki. split; [done|]. exists k. split; [done|]. split; [lia|]. intros i v Hv. apply zlook_Some_lt in Hv as ?. specialize (Hki i v Hv).
    destruct (zlook_lt k i) as [j Hp]; [lia|]. exists j. split; [done|]. apply Hm. congruence.
  - intros (v & Hv & Hn). right. exists v. split; [done|]. by apply (not_last_pos_None m).
Qed.
Lemma indices_ok l p : NoDup l -> (forall v, v ∈ p -> v ∈ l) ->
  exists k, indicesOfSubPart (vec l) (vec p) = Ok (Some <$> k) /\ zlen k = zlen p /\ forall i v, p @ i = Some v -> exists j, k @ i = Some j /\ l @ j = Some v.
Proof.
  intros Hn Hin. pose proof (indices_wp l p) as H. destruct (indicesOfSubPart _ _) as [r| | |]; simpl in H; try tauto.
  - destruct H as (_ & k & -> & Hk & H). exists k. done.
  - destruct H as [?|(v & Hv & Hnv)]; exfalso; auto.
Qed.
Lemma indices_throw l p : indicesOfSubPart (vec l) (vec p) = Throw <-> ~ NoDup l \/ exists v, v ∈ p /\ v ∉ l.
Proof.
  pose proof (indices_wp l p) as H. destruct (indicesOfSubPart _ _) as [r| | |]; simpl in H; try tauto.
  split; [done|]. destruct H as (Hn & k & -> & Hk & H). intros [?|(v & Hv & Hnv)]; [done|]. apply elem_of_zlook in Hv as [i Hi].
  destruct (H i v Hi) as (j & _ & Hj). exfalso. apply Hnv. eapply zlook_elem; eauto.
Qed.

Lemma findIdForEach_wp d vals : da_alloc d = true -> da_nc d = 1 ->
  wp (findIdForEach vals d)
     (fun r => exists k, r = Some <$> k /\ zlen k = zlen vals /\ forall i v, vals @ i = Some v -> exists p, k @ i = Some p /\ last_pos (da_vals d) v p)
     (exists v, v ∈ vals /\ v ∉ da_vals d).
Proof.
  intros Ha Hc. unfold findIdForEach. wstep. apply wp_alloc; [apply zlen_nonneg|lia|].
  destruct (invertOpt_ok d Ha Hc) as (m & -> & Hm). simpl.
  apply (mapfill_wp vals (fun v => m !! v)).
  - done.
  - rewrite Z.mul_1_l, zlen_malloc. pose proof (zlen_nonneg vals). lia.
  - intros i v ret Hv _. rewrite (rd_ok _ _ _ Hv). simpl. destruct (m !! v); done.
  - intros k Hk Hki. exists k. split; [done|]. split; [lia|]. intros i v Hv. apply zlook_Some_lt in Hv as ?. specialize (Hki i v Hv).
    destruct (zlook_lt k i) as [p Hp]; [lia|]. exists p. split; [done|]. apply Hm. congruence.
  - intros (v & Hv & Hn). exists v. split; [done|]. by apply (not_last_pos_None m).
Qed.
Lemma findIdForEach_ok d vals : da_alloc d = true -> da_nc d = 1 -> (forall v, v ∈ vals -> v ∈ da_vals d) ->
  exists k, findIdForEach vals d = Ok (Some <$> k) /\ zlen k = zlen vals /\ forall i v, vals @ i = Some v -> exists p, k @ i = Some p /\ last_pos (da_vals d) v p.
Proof.
  intros Ha Hc Hin. pose proof (findIdForEach_wp d vals Ha Hc) as H. destruct (findIdForEach _ _) as [r| | |]; simpl in H; try tauto.
  - destruct H as (k & -> & Hk & H). exists k. done.
  - destruct H as (v & Hv & Hnv); exfalso; auto.
Qed.
Lemma findIdForEach_throw d vals : da_alloc d = true -> da_nc d = 1 -> findIdForEach vals d = Throw <-> exists v, v ∈ vals /\ v ∉ da_vals d.
Proof.
  intros Ha Hc. pose proof (findIdForEach_wp d vals Ha Hc) as H. destruct (findIdForEach _ _) as [r| | |]; simpl in H; try tauto.
  split; [done|]. destruct H as (k & -> & Hk & H). intros (v & Hv & Hnv). apply elem_of_zlook in Hv as [i Hi].
  destruct (H i v Hi) as (j & _ & Hj & _). exfalso. apply Hnv. eapply zlook_elem; eauto.
Qed.

(** * Ranks of distinct values *)
Lemma sort_SS l : NoDup l -> SS (sort l).
Proof.
  intros Hn. assert (sort l = set_of l) as ->; [|apply SS_set_of].
  apply (StronglySorted_unique Z.le); [apply sort_sorted| |].
  - generalize (SS_set_of l). generalize (set_of l). induction 1 as [|x s Hs IH Hf]; constructor; [done|].
    eapply List.Forall_impl; [|apply Hf]. simpl; intros; lia.
  - rewrite sort_perm. apply NoDup_Permutation; [done|apply SS_NoDup, SS_set_of|]. intros x. symmetry. apply elem_of_set_of.
Qed.

Lemma prepare_wp l :
  wp (CheckAndPreparePermutationRaw l)
     (fun r => NoDup l /\ exists k, r = Some <$> k /\ zlen k = zlen l /\ forall i p, k @ i = Some p -> sort l @ p = l @ i)
     (~ NoDup l).
Proof.
  unfold CheckAndPreparePermutationRaw. wstep.
  { intros E. rewrite <- sort_unique_len. lia. }
  intros E. assert (Hn : NoDup l) by (apply sort_unique_len; lia).
  wstep. eapply wp_mono; [apply mapLoop_wp; symmetry; apply sort_len| |done]. simpl. intros m Hm.
  apply (mapfill_wp l (fun v => Some (default 0 (m !! v)))).
  - done.
  - rewrite zlen_malloc. pose proof (zlen_nonneg l). lia.
  - intros i v ret Hv _. rewrite (rd_ok _ _ _ Hv). done.
  - intros k Hk Hki. split; [done|]. exists k. split; [done|]. split; [done|]. intros i p Hp. apply zlook_Some_lt in Hp as ?.
    destruct (zlook_lt l i) as [v Hv]; [lia|]. specialize (Hki i v Hv).
    destruct (last_pos_exists (sort l) v) as [q Hq]; [rewrite sort_perm; eapply zlook_elem; eauto|].
    assert (m !! v = Some q) by (apply Hm; done). rewrite Hki in Hp. rewrite H0 in Hp. simpl in Hp. injection Hp as <-. rewrite Hv. apply Hq.
  - intros (v & Hv & ?). done.
Qed.

Lemma rank_facts l k : NoDup l -> zlen k = zlen l -> (forall i p, k @ i = Some p -> sort l @ p = l @ i) ->
  is_perm (zlen l) k /\ forall i j x y p q, l @ i = Some x -> l @ j = Some y -> k @ i = Some p -> k @ j = Some q -> (p < q <-> x < y).
Proof.
  intros Hn Hk Hs. pose proof (sort_SS l Hn) as HSS. split.
  - apply perm_intro; [done| |].
    + intros i x Hx. apply zlook_Some_lt in Hx as ?. destruct (zlook_lt l i) as [v Hv]; [lia|]. specialize (Hs i x Hx). rewrite Hv in Hs.
      apply zlook_Some_lt in Hs. rewrite sort_len in Hs. done.
    + apply NoDup_zlook. intros i j x Hi Hj. apply zlook_Some_lt in Hi as ?. destruct (zlook_lt l i) as [v Hv]; [lia|].
      pose proof (Hs i x Hi) as E1. pose proof (Hs j x Hj) as E2. rewrite NoDup_zlook in Hn. apply (Hn i j v); congruence.
  - intros i j x y p q Hx Hy Hp Hq. pose proof (Hs i p Hp) as E1. pose proof (Hs j q Hq) as E2. rewrite Hx in E1. rewrite Hy in E2.
    apply increasing_SS in HSS. destruct (Z.lt_trichotomy p q) as [L|[->|L]].
    + pose proof (HSS p q x y L E1 E2). lia.
    + assert (x = y) by congruence. lia.
    + pose proof (HSS q p y x L E2 E1). lia.
Qed.

Lemma checkAndPrepare_ok d : da_alloc d = true -> da_nc d = 1 -> NoDup (da_vals d) ->
  exists k, checkAndPreparePermutation d = Ok (Some <$> k) /\ is_perm (da_nt d) k /\
    forall i j x y p q, da_vals d @ i = Some x -> da_vals d @ j = Some y -> k @ i = Some p -> k @ j = Some q -> (p < q <-> x < y).
Proof.
  intros Ha Hc Hn. unfold checkAndPreparePermutation, checkAllocated, checkOneComp. rewrite Ha, Hc. simpl. rewrite da_nt_one by done.
  pose proof (prepare_wp (da_vals d)) as H. destruct (CheckAndPreparePermutationRaw _) as [r| | |]; simpl in H; try tauto.
  destruct H as (_ & k & -> & Hk & Hs). exists k. split; [done|]. apply rank_facts; done.
Qed.
Lemma checkAndPrepare_throw d : checkAndPreparePermutation d = Throw <-> bad_shape d \/ ~ NoDup (da_vals d).
Proof.
  destruct (goodb d) eqn:E.
  - unfold goodb in E. apply andb_true_iff in E as [Ha Hc]. apply Z.eqb_eq in Hc.
    unfold checkAndPreparePermutation, checkAllocated, checkOneComp. rewrite Ha, Hc. simpl.
    pose proof (prepare_wp (da_vals d)) as H. destruct (CheckAndPreparePermutationRaw _) as [r| | |]; simpl in H; try tauto.
    split; [done|]. intros [[?|?]|?]; [congruence|done|tauto].
  - apply goodb_false in E. split; [by left|]. intros _. by apply bad_shape_throw.
Qed.

Lemma readAll_ok {A} (k : list A) : readAll (Some <$> k) = Ok k.
Proof.
  unfold readAll. rewrite zlen_fmap. apply wp_ok_eq.
  assert (H : wp (forZ 0 (zlen k) (fun i acc => let* v := rdc (Some <$> k) i in Ok (acc ++ [v])) []) (fun x => x = k) False).
  { apply (wp_forZ (fun i acc => acc = take (Z.to_nat i) k)).
    - apply zlen_nonneg.
    - done.
    - intros i acc Hi ->. destruct (zlook_lt k i Hi) as [v Hv]. rewrite (rdc_ok _ _ v) by (rewrite zlook_fmap, Hv; done). simpl.
      symmetry. apply take_succ. done.
    - intros acc ->. apply take_ge. unfold zlen; lia. }
  unfold forZ in H. rewrite Z.sub_0_r in H. exact H.
Qed.

Lemma findPerm_ok a b : NoDup a -> a ≡ₚ b ->
  exists p, FindPermutationFromFirstToSecond (Some (vec a)) (Some (vec b)) = Ok (Some <$> p) /\ is_perm (zlen a) p /\
    forall i j, p @ i = Some j -> b @ j = a @ i.
Proof.
  intros Hn Hp. assert (Hlen : zlen a = zlen b) by (unfold zlen; rewrite Hp; done).
  assert (Hnb : NoDup b) by (rewrite <- Hp; done).
  unfold FindPermutationFromFirstToSecond. simpl. rewrite !da_nt_vec. unfold ifthrow. replace (zlen a =? zlen b) with true by lia. cbn [negb].
  rewrite bool_decide_true by (apply sort_eq; done). cbn [negb].
  unfold checkAndPreparePermutation, checkAllocated, checkOneComp. simpl.
  pose proof (prepare_wp a) as H1. destruct (CheckAndPreparePermutationRaw a) as [r1| | |]; simpl in H1; try tauto.
  destruct H1 as (_ & p1 & -> & Hl1 & Hs1). simpl.
  pose proof (prepare_wp b) as H2. destruct (CheckAndPreparePermutationRaw b) as [r2| | |]; simpl in H2; try tauto.
  destruct H2 as (_ & p2 & -> & Hl2 & Hs2). simpl. rewrite readAll_ok. simpl. rewrite readAll_ok. cbn [bind].
  destruct (rank_facts a p1 Hn Hl1 Hs1) as [Hperm1 _]. destruct (rank_facts b p2 Hnb Hl2 Hs2) as [Hperm2 _].
  assert (Hb0 : 0 <= zlen b) by apply zlen_nonneg. rewrite Hl2.
  destruct (invertO2N_perm p2 (zlen b)) as (q & -> & Hq & Hqi); [done|done|]. cbn [bind]. rewrite readAll_ok. cbn [bind].
  assert (Hlq : zlen q = zlen b) by (apply perm_len; done).
  assert (Hin : forall v, v ∈ p1 -> 0 <= v < da_nt (vec q)).
  { intros v Hv. rewrite da_nt_vec, Hlq, <- Hlen. apply elem_of_zlook in Hv as [i Hi]. eapply perm_range; [exact Hperm1|]; eauto. }
  rewrite selectSafe_same; [|done|apply da_wf_vec|].
  2: { intros (v & Hv & Hr). specialize (Hin v Hv). lia. }
  destruct (select_ok (vec q) p1) as (r & -> & Hlr & Hr); [done|apply da_wf_vec|done|]. simpl in *. rewrite Z.mul_1_r in Hlr.
  assert (Hri : forall i t, p1 @ i = Some t -> r @ i = q @ t).
  { intros i t Ht. specialize (Hr i t Ht 0). unfold ij in Hr. simpl in Hr. rewrite !Z.mul_1_r, !Z.add_0_r in Hr. apply zlook_Some_lt in Ht as ?.
    pose proof (perm_range _ _ _ _ Hperm1 Ht). replace (0 <=? i) with true in Hr by lia. replace (0 <=? t) with true in Hr by lia. exact Hr. }
  assert (Hsab : sort a = sort b) by (apply sort_eq; done).
  exists r. split; [done|]. split.
  - apply perm_intro; [lia| |].
    + intros i x Hx. apply zlook_Some_lt in Hx as ?. destruct (zlook_lt p1 i) as [t Ht]; [lia|]. rewrite (Hri i t Ht) in Hx.
      rewrite Hlen. eapply perm_range; [exact Hq|]; eauto.
    + apply NoDup_zlook. intros i j x Hi Hj. apply zlook_Some_lt in Hi as ?. apply zlook_Some_lt in Hj as ?.
      destruct (zlook_lt p1 i) as [t Ht]; [lia|]. destruct (zlook_lt p1 j) as [u Hu]; [lia|].
      rewrite (Hri i t Ht) in Hi. rewrite (Hri j u Hu) in Hj.
      assert (t = u) by (apply Hqi in Hi; apply Hqi in Hj; congruence). subst u.
      eapply (perm_inj (zlen a) p1); eauto.
  - intros i j Hj. apply zlook_Some_lt in Hj as ?. destruct (zlook_lt p1 i) as [t Ht]; [lia|]. rewrite (Hri i t Ht) in Hj.
    apply Hqi in Hj. rewrite <- (Hs1 i t Ht), <- (Hs2 j t Hj), Hsab. done.
Qed.

Lemma findPerm_throw a b : FindPermutationFromFirstToSecond (Some (vec a)) (Some (vec b)) = Throw <-> ~ (NoDup a /\ a ≡ₚ b).
Proof.
  split.
  - intros H [Hn Hp]. destruct (findPerm_ok a b Hn Hp) as (p & Hp' & _). congruence.
  - intros H. unfold FindPermutationFromFirstToSecond. simpl. unfold ifthrow. destruct (negb (da_nt (vec a) =? da_nt (vec b))); [done|].
    destruct (bool_decide (sort a = sort b)) eqn:E; [|done]. simpl. apply bool_decide_eq_true in E. apply sort_eq in E.
    assert (Hn : ~ NoDup a) by tauto. destruct (checkAndPrepare_throw (vec a)) as [_ Ht]. rewrite Ht by (right; done). done.
Qed.

(** * Ranks of occurrence *)
Lemma occ_take_le x l i j : i <= j -> occ x (take (Z.to_nat i) l) <= occ x (take (Z.to_nat j) l).
Proof.
  intros Hij. replace (Z.to_nat j) with (Z.to_nat i + (Z.to_nat j - Z.to_nat i))%nat by lia. rewrite <- (take_take_drop l (Z.to_nat i)).
  unfold occ. rewrite filter_app, zlen_app. pose proof (zlen_nonneg (filter (fun y => y = x) (take (Z.to_nat j - Z.to_nat i) (drop (Z.to_nat i) l)))). lia.
Qed.
Lemma occ_le x l i : occ x (take (Z.to_nat i) l) <= occ x l.
Proof.
  destruct (Z.le_gt_cases (zlen l) i); [rewrite take_ge by (unfold zlen in *; lia); lia|].
  rewrite <- (take_ge l (Z.to_nat (zlen l))) at 2 by (unfold zlen; lia). apply occ_take_le. lia.
Qed.
Lemma occ_nonneg x l : 0 <= occ x l.
Proof. apply zlen_nonneg. Qed.
Lemma occ_take_succ x l i v : l @ i = Some v -> occ x (take (Z.to_nat (i + 1)) l) = occ x (take (Z.to_nat i) l) + (if decide (v = x) then 1 else 0).
Proof. intros Hv. rewrite (take_succ l i v Hv). unfold occ. rewrite filter_app, zlen_app, filter_cons, filter_nil. destruct (decide (v = x)); done. Qed.
Lemma occ_lt x l i j : i < j -> l @ i = Some x -> occ x (take (Z.to_nat i) l) < occ x (take (Z.to_nat j) l).
Proof. intros Hij Hi. pose proof (occ_take_succ x l i x Hi). rewrite decide_True in H by done. pose proof (occ_take_le x l (i+1) j). lia. Qed.
Lemma occ_lt_all x l i : l @ i = Some x -> occ x (take (Z.to_nat i) l) < occ x l.
Proof. intros Hi. pose proof (occ_take_succ x l i x Hi). rewrite decide_True in H by done. pose proof (occ_le x l (i+1)). lia. Qed.
Lemma occ_rank_inj x l i j : l @ i = Some x -> l @ j = Some x -> occ x (take (Z.to_nat i) l) = occ x (take (Z.to_nat j) l) -> i = j.
Proof.
  intros Hi Hj E. destruct (Z.lt_trichotomy i j) as [L|[L|L]]; [|done|].
  - pose proof (occ_lt x l i j L Hi). lia.
  - pose proof (occ_lt x l j i L Hj). lia.
Qed.
Lemma occ_rank_surj x l c : 0 <= c < occ x l -> exists i, l @ i = Some x /\ occ x (take (Z.to_nat i) l) = c.
Proof.
  revert c. induction l as [|y l IH] using rev_ind; intros c Hc.
  - change (occ x []) with 0 in Hc. lia.
  - destruct (decide (c < occ x l)) as [L|L].
    + destruct (IH c) as (i & Hi & Ho); [lia|]. exists i. apply zlook_Some_lt in Hi as ?. rewrite zlook_app_l by lia. split; [done|].
      rewrite take_app_le by (unfold zlen in *; lia). done.
    + unfold occ in Hc, L. rewrite filter_app, zlen_app, filter_cons, filter_nil in Hc. destruct (decide (y = x)) as [->|].
      * change (zlen [x]) with 1 in Hc. exists (zlen l). pose proof (zlen_nonneg l). rewrite zlook_app_r by lia. rewrite Z.sub_diag. split; [done|].
        unfold zlen at 1. rewrite Nat2Z.id, take_app. unfold occ. lia.
      * change (zlen (@nil Z)) with 0 in Hc. lia.
Qed.

Lemma occ_zero x l : occ x l = 0 <-> x ∉ l.
Proof.
  split.
  - intros H Hx. apply elem_of_zlook in Hx as [i Hi]. pose proof (occ_lt_all x l i Hi). pose proof (occ_nonneg x (take (Z.to_nat i) l)). lia.
  - intros Hx. pose proof (occ_nonneg x l). destruct (decide (occ x l = 0)); [done|]. destruct (occ_rank_surj x l 0) as (i & Hi & _); [lia|].
    exfalso. apply Hx. eapply zlook_elem; eauto.
Qed.

(** The map holding the number of occurrences met so far. *)
Definition count_map (m : gmap Z Z) (l : list Z) : Prop := forall v, m !! v = if decide (occ v l = 0) then None else Some (occ v l).
Lemma count_map_empty : count_map ∅ [].
Proof. intros v. rewrite lookup_empty. done. Qed.
Lemma count_map_snoc m l v : count_map m l -> count_map (<[v := occ v l + 1]> m) (l ++ [v]).
Proof.
  intros Hm w. pose proof (occ_nonneg w l). assert (Ho : occ w (l ++ [v]) = occ w l + if decide (v = w) then 1 else 0).
  { unfold occ. rewrite filter_app, zlen_app, filter_cons, filter_nil. destruct (decide (v = w)); done. }
  rewrite Ho. destruct (decide (v = w)) as [->|].
  - rewrite lookup_insert. rewrite decide_False by lia. done.
  - rewrite lookup_insert_ne by done. rewrite Hm, Z.add_0_r. done.
Qed.

Lemma occRank_ok d : da_alloc d = true -> da_nc d = 1 ->
  exists k, occurenceRankInThis d = Ok (Some <$> k) /\ zlen k = da_nt d /\ forall i v, da_vals d @ i = Some v -> k @ i = Some (occ v (take (Z.to_nat i) (da_vals d))).
Proof.
  intros Ha Hc. unfold occurenceRankInThis, checkAllocated, checkOneComp. rewrite Ha, Hc. simpl. rewrite da_nt_one by done. set (l := da_vals d).
  enough (Hw : wp (let* ret := alloc Z (zlen l) 1 in let* (_, ret) := forZ 0 (zlen l) (fun i '(m, ret) =>
    let* v := rd l i in
    match (m : gmap Z Z) !! v with
    | None => let* ret := wrc ret i 0 in Ok (<[v := 1]> m, ret)
    | Some c => let* ret := wrc ret i c in Ok (<[v := c + 1]> m, ret)
    end) (∅, ret) in Ok ret)
    (fun r => exists k, r = Some <$> k /\ zlen k = zlen l /\ forall i v, l @ i = Some v -> k @ i = Some (occ v (take (Z.to_nat i) l))) False).
  { apply wp_ok in Hw as (r & Hr & k & -> & Hk). exists k. done. }
  wstep. apply wp_alloc; [apply zlen_nonneg|lia|]. wstep.
  apply (wp_forZ (fun i '(m, ret) => count_map m (take (Z.to_nat i) l) /\ zlen ret = zlen l /\
    forall k v, k < i -> l @ k = Some v -> ret @ k = Some (Some (occ v (take (Z.to_nat k) l))))).
  - apply zlen_nonneg.
  - split; [apply count_map_empty|]. split; [rewrite Z.mul_1_l, zlen_malloc; pose proof (zlen_nonneg l); lia|].
    intros k v Hk Hv. apply zlook_Some_lt in Hv. lia.
  - intros i [m ret] Hi (Hm & Hl & Hr). destruct (zlook_lt l i Hi) as [v Hv]. rewrite (rd_ok _ _ _ Hv). cbn [bind].
    assert (Hgo : forall c, c = occ v (take (Z.to_nat i) l) -> wp (let* ret0 := wrc ret i c in Ok (<[v := c + 1]> m, ret0))
      (fun '(m0, ret0) => count_map m0 (take (Z.to_nat (i+1)) l) /\ zlen ret0 = zlen l /\
        forall k v, k < i + 1 -> l @ k = Some v -> ret0 @ k = Some (Some (occ v (take (Z.to_nat k) l)))) False).
    { intros c ->. wstep. wstep; [lia|]. rewrite (take_succ l i v Hv). split; [by apply count_map_snoc|]. split; [by rewrite zlen_zset|].
      intros k w Hk Hw. rewrite zlook_zset by lia. destruct (Z.eqb_spec k i) as [->|]; [congruence|]. apply Hr; [lia|done]. }
    specialize (Hm v) as Hmv. destruct (decide (occ v (take (Z.to_nat i) l) = 0)) as [E|E]; rewrite Hmv.
    + apply (Hgo 0). done.
    + apply Hgo. done.
  - intros [m ret] (_ & Hl & Hr). simpl. destruct (all_some ret) as [k ->].
    { intros i Hi. destruct (zlook_lt l i) as [v Hv]; [lia|]. rewrite (Hr i v) by (lia || done). eauto. }
    exists k. rewrite zlen_fmap in Hl. split; [done|]. split; [done|]. intros i v Hv. apply zlook_Some_lt in Hv as ?.
    specialize (Hr i v ltac:(lia) Hv). rewrite zlook_fmap in Hr. destruct (k @ i); simpl in Hr; congruence.
Qed.

(** * FindPermutationFromFirstToSecondDuplicate *)
Lemma perm_compose (a b p : list Z) : zlen a = zlen b -> is_perm (zlen a) p -> (forall i j, p @ i = Some j -> b @ j = a @ i) -> a ≡ₚ b.
Proof.
  intros Hl Hp Hab. assert (Hlp : zlen p = zlen a) by (apply perm_len; [apply zlen_nonneg|done]).
  set (f := fun j => default 0 (b @ j)).
  assert (a = f <$> p) as ->.
  { apply zlook_ext. intros i. rewrite zlook_fmap. destruct (p @ i) as [j|] eqn:E; simpl.
    - specialize (Hab i j E). apply zlook_Some_lt in E. destruct (zlook_lt a i) as [v Hv]; [lia|]. unfold f. rewrite Hab, Hv. done.
    - destruct (a @ i) eqn:E'; [|done]. apply zlook_Some_lt in E'. destruct (zlook_lt p i); [lia|]. congruence. }
  assert (Hb : b = f <$> seqZ 0 (zlen b)).
  { apply zlook_ext. intros i. rewrite zlook_fmap. destruct (b @ i) as [v|] eqn:E.
    - apply zlook_Some_lt in E as ?. rewrite zlook_seqZ by lia. simpl. unfold f. rewrite Z.add_0_l, E. done.
    - destruct (seqZ 0 (zlen b) @ i) as [j|] eqn:E'; [|done]. apply zlook_Some_lt in E'. rewrite zlen_seqZ in E'.
      destruct (zlook_lt b i); [lia|]. congruence. }
  rewrite Hb. apply fmap_Permutation. unfold is_perm in Hp. rewrite <- Hl. rewrite zlen_fmap, Hlp. done.
Qed.

Lemma findPermDup_wp a b : zlen a = zlen b ->
  wp (FindPermutationFromFirstToSecondDuplicate (Some (vec a)) (Some (vec b)))
     (fun r => a ≡ₚ b /\ exists p, r = Some <$> p /\ is_perm (zlen a) p /\ (forall i j, p @ i = Some j -> b @ j = a @ i) /\
        forall i j x y, i < j -> a @ i = a @ j -> p @ i = Some x -> p @ j = Some y -> x < y)
     (~ a ≡ₚ b).
Proof.
  intros Hl. unfold FindPermutationFromFirstToSecondDuplicate, checkAllocated, checkOneComp. simpl. rewrite !da_nt_vec. unfold ifthrow.
  replace (zlen a =? zlen b) with true by lia. cbn [negb].
  wstep. apply wp_alloc; [apply zlen_nonneg|lia|].
  destruct (occRank_ok (vec b)) as (o & -> & Hlo & Ho); [done..|]. cbn [bind]. rewrite readAll_ok. cbn [bind]. rewrite da_nt_vec in Hlo. simpl in Ho.
  wstep.
  apply (wp_forZ (fun i (m : gmap (Z * Z) Z) => forall v c p, m !! (v, c) = Some p <-> p < i /\ b @ p = Some v /\ c = occ v (take (Z.to_nat p) b))).
  - apply zlen_nonneg.
  - intros v c p. rewrite lookup_empty. split; [done|]. intros (H1 & H2 & _). apply zlook_Some_lt in H2. lia.
  - intros i m Hi Hm. destruct (zlook_lt b i) as [v Hv]; [lia|]. rewrite (rd_ok _ _ _ Hv). cbn [bind]. rewrite (rd_ok _ _ _ (Ho i v Hv)). simpl.
    intros w c p. destruct (decide ((v, occ v (take (Z.to_nat i) b)) = (w, c))) as [E|E].
    + injection E as -> <-. rewrite lookup_insert. split.
      * intros [= <-]. split; [lia|]. done.
      * intros (_ & H1 & H2). f_equal. eapply occ_rank_inj; eauto.
    + rewrite lookup_insert_ne by done. rewrite Hm. split.
      * intros (H1 & H2 & H3). split; [lia|done].
      * intros (H1 & H2 & H3). split; [|done]. destruct (decide (p = i)) as [->|]; [|lia]. exfalso. apply E. congruence.
  - intros m Hm. cbn beta.
    set (rk := fun i v => occ v (take (Z.to_nat i) a)).
    wstep. apply (wp_forZ (fun i '(mo, ret) => count_map mo (take (Z.to_nat i) a) /\ zlen ret = zlen a /\
      forall k v, k < i -> a @ k = Some v -> exists p, ret @ k = Some (Some p) /\ b @ p = Some v /\ rk k v = occ v (take (Z.to_nat p) b))).
    + apply zlen_nonneg.
    + split; [apply count_map_empty|]. split; [rewrite Z.mul_1_l, zlen_malloc; pose proof (zlen_nonneg a); lia|].
      intros k v Hk Hv. apply zlook_Some_lt in Hv. lia.
    + intros i [mo ret] Hi (Hmo & Hlr & Hr). destruct (zlook_lt a i Hi) as [v Hv]. rewrite (rd_ok _ _ _ Hv). cbn [bind].
      assert (E : match mo !! v with None => (0, <[v := 1]> mo) | Some c => (c, <[v := c + 1]> mo) end = (rk i v, <[v := rk i v + 1]> mo)).
      { rewrite (Hmo v). unfold rk. destruct (decide (occ v (take (Z.to_nat i) a) = 0)) as [E|E]; [rewrite E|]; done. }
      rewrite E. clear E. cbn iota beta. destruct (m !! (v, rk i v)) as [p|] eqn:Ep.
      * apply Hm in Ep as (_ & Hp & Hc). wstep. wstep; [lia|]. rewrite (take_succ a i v Hv). split; [by apply count_map_snoc|].
        split; [by rewrite zlen_zset|]. intros k w Hk Hw. rewrite zlook_zset by lia. destruct (Z.eqb_spec k i) as [->|].
        -- assert (w = v) as -> by congruence. exists p. done.
        -- apply Hr; [lia|done].
      * simpl. intros Hab. assert (Hocc : occ v a = occ v b) by (unfold occ, zlen; rewrite Hab; done).
        destruct (occ_rank_surj v b (rk i v)) as (p & Hp & Hc).
        { unfold rk. rewrite <- Hocc. split; [apply occ_nonneg|]. by apply occ_lt_all. }
        assert (m !! (v, rk i v) = Some p); [|congruence]. apply Hm. apply zlook_Some_lt in Hp as ?. split; [lia|]. done.
    + intros [mo ret] (_ & Hlr & Hr). simpl. destruct (all_some ret) as [p ->].
      { intros i Hi. destruct (zlook_lt a i) as [v Hv]; [lia|]. destruct (Hr i v) as (q & Hq & _); [lia|done|]. eauto. }
      rewrite zlen_fmap in Hlr.
      assert (Hp : forall i j, p @ i = Some j -> exists v, a @ i = Some v /\ b @ j = Some v /\ rk i v = occ v (take (Z.to_nat j) b)).
      { intros i j Hj. apply zlook_Some_lt in Hj as ?. destruct (zlook_lt a i) as [v Hv]; [lia|]. destruct (Hr i v) as (q & Hq & Hq'); [lia|done|].
        rewrite zlook_fmap, Hj in Hq. simpl in Hq. injection Hq as <-. exists v. done. }
      assert (Hperm : is_perm (zlen a) p).
      { apply perm_intro; [done| |].
        - intros i x Hx. destruct (Hp i x Hx) as (v & _ & Hb & _). apply zlook_Some_lt in Hb. lia.
        - apply NoDup_zlook. intros i j x Hi Hj. destruct (Hp i x Hi) as (v & Ha & Hb & Hc). destruct (Hp j x Hj) as (w & Ha' & Hb' & Hc').
          assert (w = v) as -> by congruence. unfold rk in *. eapply occ_rank_inj; [exact Ha|exact Ha'|]. congruence. }
      assert (Hab : forall i j, p @ i = Some j -> b @ j = a @ i).
      { intros i j Hj. destruct (Hp i j Hj) as (v & -> & -> & _). done. }
      split; [eapply perm_compose; eauto|]. exists p. split; [done|]. split; [done|]. split; [done|].
      intros i j x y Hij Haij Hx Hy. destruct (Hp i x Hx) as (v & Ha & Hb & Hc). destruct (Hp j y Hy) as (w & Ha' & Hb' & Hc').
      assert (w = v) as -> by congruence. pose proof (occ_lt v a i j Hij Ha). unfold rk in *.
      destruct (Z.lt_ge_cases x y) as [|L]; [done|]. pose proof (occ_take_le v b y x L). lia.
Qed.
Lemma findPermDup_ok a b : a ≡ₚ b ->
  exists p, FindPermutationFromFirstToSecondDuplicate (Some (vec a)) (Some (vec b)) = Ok (Some <$> p) /\ is_perm (zlen a) p /\
    (forall i j, p @ i = Some j -> b @ j = a @ i) /\ forall i j x y, i < j -> a @ i = a @ j -> p @ i = Some x -> p @ j = Some y -> x < y.
Proof.
  intros Hp. assert (Hl : zlen a = zlen b) by (unfold zlen; rewrite Hp; done).
  pose proof (findPermDup_wp a b Hl) as H. destruct (FindPermutationFromFirstToSecondDuplicate _ _) as [r| | |]; simpl in H; try tauto.
  destruct H as (_ & p & -> & H). exists p. done.
Qed.
Lemma findPermDup_throw a b : FindPermutationFromFirstToSecondDuplicate (Some (vec a)) (Some (vec b)) = Throw <-> ~ a ≡ₚ b.
Proof.
  destruct (decide (zlen a = zlen b)) as [Hl|Hl].
  - pose proof (findPermDup_wp a b Hl) as H. destruct (FindPermutationFromFirstToSecondDuplicate _ _) as [r| | |]; simpl in H; try tauto.
    split; [done|tauto].
  - split.
    + intros _ Hp. apply Hl. unfold zlen; rewrite Hp; done.
    + intros _. unfold FindPermutationFromFirstToSecondDuplicate, checkAllocated, checkOneComp. simpl. rewrite !da_nt_vec. unfold ifthrow.
      replace (zlen a =? zlen b) with false by lia. done.
Qed.

(** * buildPermArrPerLevel *)
Definition sumlt (x : Z) (m : list (Z * Z)) : Z := foldr (fun '(k, c) s => if k <? x then c + s else s) 0 m.
Lemma sumlt_above x m : (forall k, k ∈ m.*1 -> x <= k) -> sumlt x m = 0.
Proof.
  induction m as [|[k c] m IH]; intros H; [done|]. simpl. destruct (Z.ltb_spec k x).
  - specialize (H k). simpl in H. assert (x <= k) by (apply H; left). lia.
  - apply IH. intros k' Hk'. apply H. simpl. right. done.
Qed.
Lemma sumlt_mset x k c m : keys_sorted m -> sumlt x (mset k c m) = sumlt x m + (if k <? x then c - default 0 (mget k m) else 0).
Proof.
  unfold keys_sorted. induction m as [|[k0 c0] m IH]; intros Hs; simpl.
  - destruct (k <? x); lia.
  - simpl in Hs. apply SS_cons_inv in Hs as [Hs Hall]. destruct (Z.ltb_spec k k0).
    + simpl. destruct (Z.eqb_spec k k0); [lia|].
      assert (mget k m = None) as -> by (apply mget_None; intros Hk; specialize (Hall _ Hk); lia). simpl. destruct (k <? x), (k0 <? x); lia.
    + destruct (Z.ltb_spec k0 k); simpl.
      * destruct (Z.eqb_spec k k0); [lia|]. rewrite IH by done. destruct (k0 <? x), (k <? x); lia.
      * assert (k = k0) as -> by lia. rewrite Z.eqb_refl. simpl. destruct (k0 <? x); lia.
Qed.
Lemma mget_prefix x m s : keys_sorted m -> x ∈ m.*1 -> mget x (mapPrefixSums s m) = Some (s + sumlt x m).
Proof.
  unfold keys_sorted. revert s. induction m as [|[k c] m IH]; intros s Hs Hx; simpl in *; [by apply elem_of_nil in Hx|].
  apply SS_cons_inv in Hs as [Hs Hall]. apply elem_of_cons in Hx as [->|Hx].
  - rewrite Z.eqb_refl. replace (k <? k) with false by lia. rewrite sumlt_above by (intros k' Hk'; specialize (Hall _ Hk'); lia). f_equal. lia.
  - pose proof (Hall _ Hx). replace (x =? k) with false by lia. replace (k <? x) with true by lia. rewrite IH by done. f_equal. lia.
Qed.

Lemma nlower_snoc x l y : nlower x (l ++ [y]) = nlower x l + (if y <? x then 1 else 0).
Proof. unfold nlower. rewrite filter_app, zlen_app, filter_cons, filter_nil. destruct (decide (y < x)), (Z.ltb_spec y x); (lia || done). Qed.

Definition smap (m : list (Z * Z)) (l : list Z) : Prop :=
  keys_sorted m /\ (forall v, mget v m = if decide (occ v l = 0) then None else Some (occ v l)) /\ forall x, sumlt x m = nlower x l.
Lemma smap_snoc m l v : smap m l -> smap (mset v (occ v l + 1) m) (l ++ [v]).
Proof.
  intros (Hs & Hg & Hn). split; [by apply mset_sorted|]. split.
  - intros w. rewrite mget_mset by done. pose proof (occ_nonneg w l). rewrite occ_snoc. destruct (Z.eqb_spec w v) as [->|].
    + rewrite Z.eqb_refl. rewrite decide_False by lia. done.
    + replace (v =? w) with false by lia. rewrite Z.add_0_r. apply Hg.
  - intros x. rewrite sumlt_mset by done. rewrite nlower_snoc, Hn, Hg. destruct (decide (occ v l = 0)); simpl; destruct (v <? x); lia.
Qed.

Lemma perLevel_ok d : da_alloc d = true -> da_nc d = 1 ->
  exists k, buildPermArrPerLevel d = Ok (Some <$> k) /\ zlen k = da_nt d /\
    forall i v, da_vals d @ i = Some v -> k @ i = Some (nlower v (da_vals d) + occ v (take (Z.to_nat i) (da_vals d))).
Proof.
  intros Ha Hc. unfold buildPermArrPerLevel, checkAllocated, checkOneComp. rewrite Ha, Hc. cbn [negb ifthrow Z.eqb Pos.eqb]. rewrite da_nt_one by done. set (l := da_vals d).
  match goal with |- exists k, ?prog = _ /\ _ => enough (Hw : wp prog
    (fun r => exists k, r = Some <$> k /\ zlen k = zlen l /\ forall i v, l @ i = Some v -> k @ i = Some (nlower v l + occ v (take (Z.to_nat i) l))) False) end.
  { apply wp_ok in Hw as (r & Hr & k & -> & Hk). exists k. done. }
  wstep. apply wp_alloc; [apply zlen_nonneg|lia|]. wstep.
  apply (wp_forZ (fun i '(m, ret) => smap m (take (Z.to_nat i) l) /\ zlen ret = zlen l /\
    forall k v, k < i -> l @ k = Some v -> ret @ k = Some (Some (occ v (take (Z.to_nat k) l))))).
  - apply zlen_nonneg.
  - split; [split; [constructor|split; [intros v|intros x]; done]|]. split; [rewrite Z.mul_1_l, zlen_malloc; pose proof (zlen_nonneg l); lia|].
    intros k v Hk Hv. apply zlook_Some_lt in Hv. lia.
  - intros i [m ret] Hi (Hm & Hl & Hr). destruct (zlook_lt l i Hi) as [v Hv]. rewrite (rd_ok _ _ _ Hv). cbn [bind].
    assert (Hgo : forall c, c = occ v (take (Z.to_nat i) l) -> wp (let* ret0 := wrc ret i c in Ok (mset v (c + 1) m, ret0))
      (fun '(m0, ret0) => smap m0 (take (Z.to_nat (i+1)) l) /\ zlen ret0 = zlen l /\
        forall k v, k < i + 1 -> l @ k = Some v -> ret0 @ k = Some (Some (occ v (take (Z.to_nat k) l)))) False).
    { intros c ->. wstep. wstep; [lia|]. rewrite (take_succ l i v Hv). split; [by apply smap_snoc|]. split; [by rewrite zlen_zset|].
      intros k w Hk Hw. rewrite zlook_zset by lia. destruct (Z.eqb_spec k i) as [->|]; [congruence|]. apply Hr; [lia|done]. }
    destruct Hm as (_ & Hmv & _). specialize (Hmv v). destruct (decide (occ v (take (Z.to_nat i) l) = 0)) as [E|E]; rewrite Hmv.
    + apply (Hgo 0). done.
    + apply Hgo. done.
  - intros [m ret] (Hm & Hl & Hr). rewrite take_ge in Hm by (unfold zlen; lia). destruct Hm as (Hs & Hg & Hn).
    apply (wp_forZ (fun i ret => zlen ret = zlen l /\ forall k v, l @ k = Some v ->
      ret @ k = Some (Some (if k <? i then nlower v l + occ v (take (Z.to_nat k) l) else occ v (take (Z.to_nat k) l))))).
    + apply zlen_nonneg.
    + split; [done|]. intros k v Hv. apply zlook_Some_lt in Hv as ?. replace (k <? 0) with false by lia. apply Hr; [lia|done].
    + intros i ret' Hi [Hl' Hr']. destruct (zlook_lt l i Hi) as [v Hv]. rewrite (rd_ok _ _ _ Hv). cbn [bind].
      pose proof (Hr' i v Hv) as E. replace (i <? i) with false in E by lia. rewrite (rdc_ok _ _ _ E). cbn [bind].
      wstep; [lia|]. split; [by rewrite zlen_zset|]. intros k w Hw. rewrite zlook_zset by lia. destruct (Z.eqb_spec k i) as [->|].
      * replace (i <? i + 1) with true by lia. assert (w = v) as -> by congruence.
        rewrite mget_prefix; [simpl; rewrite Hn; do 2 f_equal; lia|done|].
        destruct (decide (v ∈ m.*1)) as [|Hnv]; [done|]. exfalso. apply mget_None in Hnv. rewrite Hg in Hnv.
        destruct (decide (occ v l = 0)) as [E0|]; [|done]. apply occ_zero in E0. apply E0. eapply zlook_elem; eauto.
      * rewrite Hr' with (v := w) by done. destruct (Z.ltb_spec k i), (Z.ltb_spec k (i+1)); (done || lia).
    + intros ret' [Hl' Hr']. destruct (all_some ret') as [k ->].
      { intros i Hi. destruct (zlook_lt l i) as [v Hv]; [lia|]. rewrite (Hr' i v) by done. eauto. }
      exists k. rewrite zlen_fmap in Hl'. split; [done|]. split; [done|]. intros i v Hv. apply zlook_Some_lt in Hv as ?.
      specialize (Hr' i v Hv). replace (i <? zlen l) with true in Hr' by lia. rewrite zlook_fmap in Hr'. destruct (k @ i); simpl in Hr'; congruence.
Qed.

Lemma nlower_occ x y l : x < y -> nlower x l + occ x l <= nlower y l.
Proof.
  intros Hxy. induction l as [|z l IH] using rev_ind; [change (0 + 0 <= 0); lia|]. rewrite !nlower_snoc, occ_snoc.
  destruct (Z.ltb_spec z x), (Z.ltb_spec z y), (Z.eqb_spec z x); lia.
Qed.
Lemma nlower_occ_len x l : nlower x l + occ x l <= zlen l.
Proof.
  induction l as [|z l IH] using rev_ind; [change (0 + 0 <= 0); lia|]. rewrite nlower_snoc, occ_snoc, zlen_app. change (zlen [z]) with 1.
  destruct (Z.ltb_spec z x), (Z.eqb_spec z x); lia.
Qed.
Lemma perLevel_sorts d : da_alloc d = true -> da_nc d = 1 ->
  exists k, buildPermArrPerLevel d = Ok (Some <$> k) /\ is_perm (da_nt d) k /\
    forall i j x y p q, i < j -> da_vals d @ i = Some x -> da_vals d @ j = Some y -> k @ i = Some p -> k @ j = Some q -> (p < q <-> x <= y).
Proof.
  intros Ha Hc. destruct (perLevel_ok d Ha Hc) as (k & -> & Hk & H). rewrite da_nt_one in * by done. set (l := da_vals d) in *. exists k. split; [done|].
  assert (Hord : forall i j x y p q, i < j -> l @ i = Some x -> l @ j = Some y -> k @ i = Some p -> k @ j = Some q -> (p < q <-> x <= y) /\ p <> q).
  { intros i j x y p q Hij Hx Hy Hp Hq. rewrite (H i x Hx) in Hp. rewrite (H j y Hy) in Hq. injection Hp as <-. injection Hq as <-.
    pose proof (occ_lt_all x l i Hx). pose proof (occ_lt_all y l j Hy).
    pose proof (occ_nonneg x (take (Z.to_nat i) l)). pose proof (occ_nonneg y (take (Z.to_nat j) l)). destruct (Z.lt_trichotomy x y) as [L|[->|L]].
    - pose proof (nlower_occ x y l L). lia.
    - pose proof (occ_lt y l i j Hij Hx). lia.
    - pose proof (nlower_occ y x l L). lia. }
  split.
  - apply perm_intro; [done| |].
    + intros i x Hx. apply zlook_Some_lt in Hx as ?. destruct (zlook_lt l i) as [v Hv]; [lia|]. rewrite (H i v Hv) in Hx. injection Hx as <-.
      pose proof (occ_lt_all v l i Hv). pose proof (occ_nonneg v (take (Z.to_nat i) l)). pose proof (nlower_occ_len v l).
      assert (0 <= nlower v l) by apply zlen_nonneg. lia.
    + apply NoDup_zlook. intros i j p Hi Hj. apply zlook_Some_lt in Hi as ?. apply zlook_Some_lt in Hj as ?.
      destruct (zlook_lt l i) as [v Hv]; [lia|]. destruct (zlook_lt l j) as [w Hw]; [lia|].
      destruct (Z.lt_trichotomy i j) as [L|[->|L]]; [|done|].
      * destruct (Hord i j v w p p L) as [_ ?]; done.
      * destruct (Hord j i w v p p L) as [_ ?]; done.
  - intros i j x y p q Hij Hx Hy Hp Hq. eapply Hord; eauto.
Qed.
