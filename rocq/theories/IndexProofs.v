From Verif Require Import Base DataArray ArrLib StdModel SlicesSpec SlicesModel SlicesProofs RenumSpec RenumProofs SearchSpec StdProofs SearchProofs IndexSpec IndexModel FillLib.
From Coq Require Import ZifyBool ZifyNat.

(** * Offsets *)
Lemma delta_ok d : da_alloc d = true -> da_nc d = 1 -> 1 <= da_nt d ->
  exists k, deltaShiftIndex d = Ok (Some <$> k) /\ zlen k = da_nt d - 1 /\
    forall i a b, da_vals d @ i = Some a -> da_vals d @ (i + 1) = Some b -> k @ i = Some (b - a).
Proof.
  intros Ha Hc Hn. unfold deltaShiftIndex, checkAllocated, checkOneComp. rewrite Ha, Hc. cbn [negb ifthrow Z.eqb Pos.eqb].
  rewrite da_nt_one in * by done. set (l := da_vals d) in *.
  match goal with |- exists k, ?prog = _ /\ _ => enough (Hw : wp prog
    (fun r => exists k, r = Some <$> k /\ zlen k = zlen l - 1 /\ forall i a b, l @ i = Some a -> l @ (i + 1) = Some b -> k @ i = Some (b - a)) False) end.
  { apply wp_ok in Hw as (r & Hr & k & -> & Hk). exists k. done. }
  wstep; [lia|]. intros _. wstep. apply wp_alloc; [lia|lia|]. rewrite Z.mul_1_l.
  apply (wp_forZ (fun i out => exists k, out = (Some <$> k) ++ malloc Z (zlen l - 1 - i) /\ zlen k = i /\
    forall j a b, j < i -> l @ j = Some a -> l @ (j + 1) = Some b -> k @ j = Some (b - a))).
  - lia.
  - exists []. split; [rewrite Z.sub_0_r; done|]. split; [done|]. intros j a b Hj Ha'. apply zlook_Some_lt in Ha'. lia.
  - intros i out Hi (k & -> & Hk & H). wstep. wstep; [lia|]. intros b Hb. wstep. wstep; [lia|]. intros a Ha'.
    apply wp_fill; [lia|lia|]. exists (k ++ [b - a]). split; [do 2 f_equal; lia|]. split; [rewrite zlen_app, Hk; done|].
    intros j a' b' Hj Ha'' Hb''. destruct (decide (j = i)) as [->|].
    + rewrite <- Hk at 1. rewrite zlook_snoc. congruence.
    + rewrite zlook_app_l by lia. apply (H j); [lia|done|done].
  - intros out (k & -> & Hk & H). exists k. rewrite fill_done by lia. split; [done|]. split; [done|].
    intros i a b Ha' Hb'. apply (H i); try done. apply zlook_Some_lt in Hb'. lia.
Qed.
Lemma delta_throw d : deltaShiftIndex d = Throw <-> bad_shape d \/ da_nt d < 1.
Proof.
  unfold deltaShiftIndex. split.
  - intros H. destruct (da_alloc d) eqn:Ea; [|left; by left]. destruct (decide (da_nc d = 1)) as [Ec|]; [|left; by right].
    right. destruct (Z.lt_ge_cases (da_nt d) 1); [done|]. destruct (delta_ok d Ea Ec) as (k & Hk & _); [lia|]. unfold deltaShiftIndex in Hk. congruence.
  - intros [H|H]; [by apply bad_shape_throw|]. unfold checkAllocated, checkOneComp. destruct (negb (da_alloc d)); [done|].
    destruct (negb (da_nc d =? 1)); [done|]. simpl. replace (da_nt d <? 1) with true by lia. done.
Qed.

Lemma offsetsFull_ok d : da_alloc d = true -> da_nc d = 1 ->
  exists r, computeOffsetsFull d = Ok (Some <$> r) /\ prefix_sums (da_vals d) r.
Proof.
  intros Ha Hc. unfold computeOffsetsFull, checkAllocated, checkOneComp. rewrite Ha, Hc. cbn [negb ifthrow Z.eqb Pos.eqb].
  rewrite da_nt_one in * by done. set (l := da_vals d) in *. pose proof (zlen_nonneg l).
  match goal with |- exists k, ?prog = _ /\ _ => enough (Hw : wp prog (fun r => exists k, r = Some <$> k /\ prefix_sums l k) False) end.
  { apply wp_ok in Hw as (r & Hr & k & -> & Hk). exists k. done. }
  wstep. rewrite fill_start. apply wp_fill; [lia|done|].
  apply (wp_forZ (fun i ret => exists k, ret = (Some <$> k) ++ malloc Z (zlen l - i) /\ prefix_sums (take (Z.to_nat i) l) k)).
  - lia.
  - exists [0]. split; [simpl; do 2 f_equal; lia|]. apply psums_nil.
  - intros i ret Hi (k & -> & Hk). wstep. wstep; [done|]. intros v Hv. wstep.
    pose proof (psums_last _ _ Hk) as Hlast. rewrite zlen_take in Hlast. replace (Z.min (Z.of_nat (Z.to_nat i)) (zlen l)) with i in Hlast by lia.
    rewrite (rdc_fill _ _ _ _ Hlast). cbn [wp]. pose proof (proj1 Hk) as Hkl. rewrite zlen_take in Hkl.
    apply wp_fill; [lia|lia|]. exists (k ++ [v + zsum (take (Z.to_nat i) l)]). split; [do 2 f_equal; lia|].
    rewrite (take_succ l i v Hv). rewrite Z.add_comm. apply psums_snoc. done.
  - intros ret (k & -> & Hk). exists k. rewrite fill_done by lia. split; [done|]. rewrite take_ge in Hk by (unfold zlen; lia). done.
Qed.

Lemma offsets_ok d : da_alloc d = true -> da_nc d = 1 ->
  exists r, computeOffsets d = Ok r /\ zlen r = da_nt d /\ forall i, 0 <= i < da_nt d -> r @ i = Some (zsum (take (Z.to_nat i) (da_vals d))).
Proof.
  intros Ha Hc. unfold computeOffsets, checkAllocated, checkOneComp. rewrite Ha, Hc. cbn [negb ifthrow Z.eqb Pos.eqb].
  rewrite da_nt_one in * by done. set (l := da_vals d) in *. pose proof (zlen_nonneg l).
  destruct (Z.eqb_spec (zlen l) 0) as [E|E]; [exists l; split; [done|]; split; [done|]; lia|]. apply wp_ok.
  wstep. wstep; [lia|]. intros v Hv. wstep. wstep; [lia|]. wstep.
  apply (wp_forZ (fun i '(work, tmp) => zlen work = zlen l /\ l @ (i - 1) = Some tmp /\ forall k, 0 <= k < zlen l ->
      work @ k = if k <? i then Some (zsum (take (Z.to_nat k) l)) else l @ k)).
  - lia.
  - split; [by rewrite zlen_zset|]. split; [done|]. intros k Hk. rewrite zlook_zset by lia.
    destruct (Z.eqb_spec k 0) as [->|]; [done|]. replace (k <? 1) with false by lia. done.
  - intros i [work tmp] Hi (Hl & Htmp & Hw). wstep. wstep; [lia|]. intros t2 Ht2. rewrite Hw in Ht2 by lia. replace (i <? i) with false in Ht2 by lia.
    wstep. wstep; [lia|]. intros p Hp. rewrite Hw in Hp by lia. replace (i - 1 <? i) with true in Hp by lia. injection Hp as <-.
    wstep. wstep; [lia|]. wstep. split; [by rewrite zlen_zset|]. split; [rewrite <- Ht2; f_equal; lia|].
    intros k Hk. rewrite zlook_zset by lia. destruct (Z.eqb_spec k i) as [->|].
    + replace (i <? i + 1) with true by lia. f_equal. rewrite <- (zsum_take_succ l (i - 1) tmp Htmp). do 2 f_equal. lia.
    + rewrite Hw by lia. destruct (Z.ltb_spec k i), (Z.ltb_spec k (i + 1)); (lia || done).
  - intros [work tmp] (Hl & _ & Hw). simpl. split; [done|]. intros k Hk. rewrite Hw by lia. replace (k <? zlen l) with true by lia. done.
Qed.

Lemma offsets_delta l : exists r, computeOffsetsFull (vec l) = Ok (Some <$> r) /\ deltaShiftIndex (vec r) = Ok (Some <$> l).
Proof.
  destruct (offsetsFull_ok (vec l)) as (r & Hr & Hp); [done..|]. exists r. split; [done|]. simpl in Hp. pose proof (zlen_nonneg l). pose proof (proj1 Hp).
  destruct (delta_ok (vec r)) as (k & Hk & Hl & H'); [done|done|rewrite da_nt_vec; lia|]. rewrite da_nt_vec in Hl. rewrite Hk. do 2 f_equal.
  apply zlook_ext_lt; [lia|]. intros i Hi. destruct (zlook_lt l i) as [v Hv]; [lia|]. destruct (psums_delta l r i v Hp Hv) as (a & Ha & Hb).
  simpl in H'. rewrite (H' i a (a + v)) by done. rewrite Hv. f_equal. lia.
Qed.
Lemma delta_offsets r : r @ 0 = Some 0 -> exists k, deltaShiftIndex (vec r) = Ok (Some <$> k) /\ computeOffsetsFull (vec k) = Ok (Some <$> r).
Proof.
  intros H0. apply zlook_Some_lt in H0 as ?. destruct (delta_ok (vec r)) as (k & Hk & Hl & H'); [done|done|rewrite da_nt_vec; lia|]. exists k. split; [done|].
  rewrite da_nt_vec in Hl. simpl in H'. destruct (offsetsFull_ok (vec k)) as (r' & Hr & Hp); [done..|]. rewrite Hr. do 2 f_equal. simpl in Hp.
  assert (Hall : forall i, 0 <= i -> i < zlen r -> r' @ i = r @ i).
  { refine (natlike_ind _ _ _).
    - intros _. rewrite (proj2 Hp) by lia. rewrite H0. done.
    - intros i Hi IH Hlt. rewrite <- Z.add_1_r in *. specialize (IH ltac:(lia)). destruct (zlook_lt r i) as [a Ha]; [lia|].
      destruct (zlook_lt r (i + 1)) as [b Hb]; [lia|]. pose proof (H' i a b Ha Hb) as Hki. destruct (psums_delta k r' i _ Hp Hki) as (a' & Ha' & Hb').
      rewrite Hb', Hb. f_equal. assert (a' = a) by congruence. lia. }
  apply zlook_ext_lt; [pose proof (proj1 Hp); lia|]. intros i Hi. apply Hall; [lia|]. pose proof (proj1 Hp); lia.
Qed.

(** * Ranges *)
Lemma firstRange_wp rs n v (T : Prop) : 0 <= n -> zlen rs = n * 2 ->
  wp (firstRange rs n v) (fun f => match f with
     | Some j => in_range rs v j /\ forall j', j' < j -> ~ in_range rs v j'
     | None => forall j, ~ in_range rs v j end) T.
Proof.
  intros Hn Hl. unfold firstRange.
  apply (wp_forZ (fun i f => match f with Some j => in_range rs v j /\ forall j', j' < j -> ~ in_range rs v j' | None => forall j, j < i -> ~ in_range rs v j end)).
  - done.
  - intros j Hj (lo & hi & _ & _ & H & _). lia.
  - intros i [j|] Hi IH; [done|]. wstep. wstep; [lia|]. intros lo Hlo. destruct (Z.leb_spec lo v).
    + wstep. wstep; [lia|]. intros hi Hhi. simpl. destruct (Z.ltb_spec v hi).
      * split; [exists lo, hi; split; [done|]; split; [done|]; lia|]. apply IH.
      * intros j Hj Hr. destruct (decide (j = i)) as [->|]; [|apply (IH j); [lia|done]]. destruct Hr as (lo' & hi' & H1 & H2 & _ & H3).
        assert (hi' = hi) by congruence. lia.
    + simpl. intros j Hj Hr. destruct (decide (j = i)) as [->|]; [|apply (IH j); [lia|done]]. destruct Hr as (lo' & hi' & H1 & H2 & _ & H3).
      assert (lo' = lo) by congruence. lia.
  - intros [j|] H; [done|]. intros j Hr. destruct (Z.lt_ge_cases j n); [by apply (H j)|]. destruct Hr as (lo & hi & H1 & _).
    apply zlook_Some_lt in H1. lia.
Qed.

Section ranges.
  Context (d r : da Z) (Ha : da_alloc d = true) (Hc : da_nc d = 1) (Hwr : da_wf r) (Hcr : da_nc r = 2).
  Local Lemma rlen : 0 <= da_nt r /\ zlen (da_vals r) = da_nt r * 2.
  Proof. destruct (da_wf_len r Hwr) as (H1 & H2 & H3). rewrite Hcr in *. lia. Qed.
  Lemma rangeId_wp : wp (findRangeIdForEachTuple d (Some r))
    (fun res => exists k, res = Some <$> k /\ zlen k = da_nt d /\ forall i v, da_vals d @ i = Some v ->
       exists j, k @ i = Some j /\ in_range (da_vals r) v j /\ forall j', j' < j -> ~ in_range (da_vals r) v j')
    (exists v, v ∈ da_vals d /\ forall j, ~ in_range (da_vals r) v j).
  Proof.
    destruct rlen as [Hn Hl]. unfold findRangeIdForEachTuple, checkAllocated, checkOneComp. rewrite Hcr, Ha, Hc. cbn [negb ifthrow Z.eqb Pos.eqb].
    rewrite da_nt_one by done. set (l := da_vals d). pose proof (zlen_nonneg l). wstep. apply wp_alloc; [lia|lia|]. rewrite Z.mul_1_l.
    apply (wp_forZ (fun i ret => exists k, ret = (Some <$> k) ++ malloc Z (zlen l - i) /\ zlen k = i /\
      forall i' v, i' < i -> l @ i' = Some v -> exists j, k @ i' = Some j /\ in_range (da_vals r) v j /\ forall j', j' < j -> ~ in_range (da_vals r) v j')).
    - done.
    - exists []. split; [rewrite Z.sub_0_r; done|]. split; [done|]. intros i' v Hi Hv. apply zlook_Some_lt in Hv. lia.
    - intros i ret Hi (k & -> & Hk & IH). wstep. wstep; [done|]. intros v Hv. wstep. eapply wp_mono; [apply firstRange_wp; done| |done]. intros [j|] Hj; simpl in Hj.
      + apply wp_fill; [lia|lia|]. exists (k ++ [j]). split; [do 2 f_equal; lia|]. split; [rewrite zlen_app, Hk; done|].
        intros i' v' Hi' Hv'. destruct (decide (i' = i)) as [->|].
        * exists j. split; [rewrite <- Hk; apply zlook_snoc|]. assert (v' = v) as -> by congruence. done.
        * destruct (IH i' v') as (j' & Hj' & Hj''); [lia|done|]. exists j'. split; [rewrite zlook_app_l by lia; done|done].
      + simpl. exists v. split; [eapply zlook_elem; eauto|done].
    - intros ret (k & -> & Hk & IH). exists k. rewrite fill_done by lia. split; [done|]. split; [done|]. intros i v Hv. apply (IH i v); [|done].
      apply zlook_Some_lt in Hv. lia.
  Qed.
  Lemma idInRange_wp : wp (findIdInRangeForEachTuple d (Some r))
    (fun res => exists k, res = Some <$> k /\ zlen k = da_nt d /\ forall i v, da_vals d @ i = Some v ->
       exists j lo, da_vals r @ (2 * j) = Some lo /\ k @ i = Some (v - lo) /\ in_range (da_vals r) v j /\ forall j', j' < j -> ~ in_range (da_vals r) v j')
    (exists v, v ∈ da_vals d /\ forall j, ~ in_range (da_vals r) v j).
  Proof.
    destruct rlen as [Hn Hl]. unfold findIdInRangeForEachTuple, checkAllocated, checkOneComp. rewrite Hcr, Ha, Hc. cbn [negb ifthrow Z.eqb Pos.eqb].
    rewrite da_nt_one by done. set (l := da_vals d). pose proof (zlen_nonneg l). wstep. apply wp_alloc; [lia|lia|]. rewrite Z.mul_1_l.
    apply (wp_forZ (fun i ret => exists k, ret = (Some <$> k) ++ malloc Z (zlen l - i) /\ zlen k = i /\
      forall i' v, i' < i -> l @ i' = Some v -> exists j lo, da_vals r @ (2 * j) = Some lo /\ k @ i' = Some (v - lo) /\ in_range (da_vals r) v j /\ forall j', j' < j -> ~ in_range (da_vals r) v j')).
    - done.
    - exists []. split; [rewrite Z.sub_0_r; done|]. split; [done|]. intros i' v Hi Hv. apply zlook_Some_lt in Hv. lia.
    - intros i ret Hi (k & -> & Hk & IH). wstep. wstep; [done|]. intros v Hv. wstep. eapply wp_mono; [apply firstRange_wp; done| |done]. intros [j|] Hj; simpl in Hj.
      + destruct Hj as [Hj Hmin]. pose proof Hj as (lo & hi & Hlo & Hhi & Hlh). rewrite (rd_ok _ _ _ Hlo). cbn [bind].
        apply wp_fill; [lia|lia|]. exists (k ++ [v - lo]). split; [do 2 f_equal; lia|]. split; [rewrite zlen_app, Hk; done|].
        intros i' v' Hi' Hv'. destruct (decide (i' = i)) as [->|].
        * assert (v' = v) as -> by congruence. exists j, lo. split; [done|]. split; [rewrite <- Hk; apply zlook_snoc|]. done.
        * destruct (IH i' v') as (j' & lo' & Hlo' & Hj' & Hj''); [lia|done|]. exists j', lo'. split; [done|]. split; [rewrite zlook_app_l by lia; done|done].
      + simpl. exists v. split; [eapply zlook_elem; eauto|done].
    - intros ret (k & -> & Hk & IH). exists k. rewrite fill_done by lia. split; [done|]. split; [done|]. intros i v Hv. apply (IH i v); [|done].
      apply zlook_Some_lt in Hv. lia.
  Qed.
  Lemma ranges_ok : (forall v, v ∈ da_vals d -> exists j, in_range (da_vals r) v j) ->
    exists k q, findRangeIdForEachTuple d (Some r) = Ok (Some <$> k) /\ findIdInRangeForEachTuple d (Some r) = Ok (Some <$> q) /\
      zlen k = da_nt d /\ zlen q = da_nt d /\ forall i v, da_vals d @ i = Some v -> exists j p lo hi, k @ i = Some j /\ q @ i = Some p /\
        da_vals r @ (2 * j) = Some lo /\ da_vals r @ (2 * j + 1) = Some hi /\ lo <= v < hi /\ v = lo + p /\ forall j', j' < j -> ~ in_range (da_vals r) v j'.
  Proof.
    intros Hall. pose proof rangeId_wp as H1. pose proof idInRange_wp as H2.
    destruct (findRangeIdForEachTuple d (Some r)) as [x| | |]; simpl in H1; try done.
    2: { destruct H1 as (v & Hv & Hn). destruct (Hall v Hv) as [j Hj]. exfalso. by apply (Hn j). }
    destruct (findIdInRangeForEachTuple d (Some r)) as [y| | |]; simpl in H2; try done.
    2: { destruct H2 as (v & Hv & Hn). destruct (Hall v Hv) as [j Hj]. exfalso. by apply (Hn j). }
    destruct H1 as (k & -> & Hk & H1). destruct H2 as (q & -> & Hq & H2). exists k, q. do 4 (split; [done|]).
    intros i v Hv. destruct (H1 i v Hv) as (j & Hj & Hr & Hm). destruct (H2 i v Hv) as (j2 & lo & Hlo & Hp & Hr2 & Hm2).
    assert (j2 = j) as ->. { destruct (Z.lt_trichotomy j2 j) as [L|[L|L]]; [exfalso; by apply (Hm j2)|done|exfalso; by apply (Hm2 j)]. }
    pose proof Hr as (lo' & hi & Hlo' & Hhi & _ & Hlh). exists j, (v - lo), lo, hi. assert (lo' = lo) by congruence. subst. do 4 (split; [done|]). split; [lia|]. split; [lia|done].
  Qed.
  Lemma ranges_throw : (findRangeIdForEachTuple d (Some r) = Throw <-> exists v, v ∈ da_vals d /\ forall j, ~ in_range (da_vals r) v j) /\
    (findIdInRangeForEachTuple d (Some r) = Throw <-> exists v, v ∈ da_vals d /\ forall j, ~ in_range (da_vals r) v j).
  Proof.
    pose proof rangeId_wp as H1. pose proof idInRange_wp as H2. split.
    - destruct (findRangeIdForEachTuple d (Some r)) as [x| | |]; simpl in H1; try done. split; [done|].
      destruct H1 as (k & -> & Hk & H1). intros (v & Hv & Hn). apply elem_of_zlook in Hv as [i Hi]. destruct (H1 i v Hi) as (j & _ & Hj & _). exfalso. by apply (Hn j).
    - destruct (findIdInRangeForEachTuple d (Some r)) as [x| | |]; simpl in H2; try done. split; [done|].
      destruct H2 as (k & -> & Hk & H2). intros (v & Hv & Hn). apply elem_of_zlook in Hv as [i Hi]. destruct (H2 i v Hi) as (j & lo & _ & _ & Hj & _). exfalso. by apply (Hn j).
  Qed.
End ranges.
