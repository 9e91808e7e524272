From stdpp Require Import gmap.
From Verif Require Import Base DataArray ArrLib SlicesModel SlicesSpec SlicesProofs RenumModel RenumSpec RenumProofs.
From Coq Require Import ZifyBool ZifyNat.

(** * selectByTupleRanges *)

Lemma ranges_ids_app a b : ranges_ids (a ++ b) = ranges_ids a ++ ranges_ids b.
Proof. unfold ranges_ids. rewrite fmap_app, concat_app. done. Qed.
Lemma ranges_ids_one r : ranges_ids [r] = seqZ r.1 (r.2 - r.1).
Proof. unfold ranges_ids. simpl. apply app_nil_r. Qed.

Lemma rangesScan_wp n ranges b0 :
  wp (rangesScan n ranges b0)
    (fun '(ref, nb, inc) => (forall r, r ∈ ranges -> range_within n r) /\ nb = zlen (ranges_ids ranges) /\
       (inc = true -> 0 <= n -> ranges <> [] -> nb <= ref - b0 /\ ref <= n /\ (nb = ref - b0 -> ranges_ids ranges = seqZ b0 nb)))
    (exists r, r ∈ ranges /\ ~ range_within n r).
Proof.
  unfold rangesScan.
  apply (wp_foldM _ (fun pre '(ref, nb, inc) => (forall r, r ∈ pre -> range_within n r) /\ nb = zlen (ranges_ids pre) /\
       (inc = true -> 0 <= n -> nb <= ref - b0 /\ (pre <> [] -> ref <= n) /\ (nb = ref - b0 -> ranges_ids pre = seqZ b0 nb)))).
  - split; [intros r Hr; inversion Hr|]. split; [done|]. intros _ _. split; [lia|]. done.
  - intros pre [b e] post [[ref nb] inc] Hl (Hpre & Hnb & Hinc).
    destruct (b <=? e) eqn:E1.
    2:{ simpl. exists (b, e). split; [rewrite Hl; set_solver|]. unfold range_within. simpl. lia. }
    destruct ((0 <=? b) && (e <=? n)) eqn:E2.
    2:{ simpl. exists (b, e). split; [rewrite Hl; set_solver|]. unfold range_within. simpl. lia. }
    simpl. split; [|split].
    + intros r [Hr|Hr]%elem_of_app; [auto|]. apply elem_of_list_singleton in Hr as ->. unfold range_within. simpl. lia.
    + rewrite ranges_ids_app, zlen_app, ranges_ids_one, zlen_seqZ. simpl. lia.
    + intros Hi Hn. destruct inc; [|done]. destruct (Hinc eq_refl Hn) as (H1 & H2 & H3).
      split; [lia|]. split; [lia|]. intros Heq. rewrite ranges_ids_app, ranges_ids_one. simpl.
      pose proof (zlen_nonneg (ranges_ids pre)). rewrite H3 by lia. rewrite seqZ_app by lia. f_equal. f_equal; lia.
  - intros [[ref nb] inc] (H1 & H2 & H3). split; [done|]. split; [done|]. intros Hi Hn Hne.
    destruct (H3 Hi Hn) as (H4 & H5 & H6). auto.
Qed.

Lemma selectRanges_wp {A} (d : da A) ranges : da_alloc d = true -> da_wf d ->
  wp (mySelectByTupleRanges d ranges)
    (fun r => (forall x, x ∈ ranges -> range_within (da_nt d) x) /\
       exists l, r = DA true (da_nc d) (Some <$> l) /\ zlen l = zlen (ranges_ids ranges) * da_nc d /\
       forall i t, ranges_ids ranges @ i = Some t -> forall j, ij (DA true (da_nc d) l) i j = ij d t j)
    (exists x, x ∈ ranges /\ ~ range_within (da_nt d) x).
Proof.
  intros Ha Hwf. destruct (da_wf_len d Hwf) as (Hv & Hn & Hnc).
  unfold mySelectByTupleRanges, checkAllocated. rewrite Ha. simpl.
  destruct ranges as [|[b0 e0] rs] eqn:Er.
  { simpl. split; [intros x Hx; inversion Hx|]. exists []. split; [done|]. split; [done|].
    intros i t Hi. change (ranges_ids []) with (@nil Z) in Hi. rewrite zlook_nil in Hi. done. }
  rewrite <- Er. eapply wp_bind'; [apply rangesScan_wp|].
  intros [[ref nb] inc] (Hall & Hnb & Hinc).
  destruct (inc && (da_nt d =? nb)) eqn:E.
  - apply andb_true_iff in E as [-> E]. destruct (Hinc eq_refl Hn) as (H1 & H2 & H3); [subst; done|].
    simpl. split; [done|].
    assert (0 <= b0) by (pose proof (Hall (b0, e0) ltac:(rewrite Er; set_solver)) as HH; unfold range_within in HH; simpl in HH; lia).
    rewrite H3 by lia. replace b0 with 0 by lia. replace nb with (da_nt d) by lia.
    exists (da_vals d). split; [done|]. split; [rewrite zlen_seqZ; nia|].
    intros i t Hi j. pose proof (zlook_Some_lt _ _ _ Hi) as Hi'. rewrite zlen_seqZ in Hi'. rewrite zlook_seqZ in Hi by lia.
    injection Hi as <-. done.
  - pose proof (zlen_nonneg (ranges_ids ranges)). wstep. apply wp_alloc; [lia|done|]. wstep.
    apply (wp_foldM _ (fun pre '(w, dst) => w = zlen (ranges_ids pre) * da_nc d /\ zlen dst = nb * da_nc d /\
      forall k v j, ranges_ids pre @ k = Some v -> 0 <= j < da_nc d -> dst @ (k * da_nc d + j) = Some <$> (da_vals d @ (v * da_nc d + j)))).
    + split; [done|]. split; [rewrite zlen_malloc; nia|]. intros k v j Hk. change (ranges_ids []) with (@nil Z) in Hk. rewrite zlook_nil in Hk. done.
    + intros pre [b e] post [w dst] Hl (Hw & Hdl & Hd).
      pose proof (Hall (b, e) ltac:(rewrite Hl; set_solver)) as Hr. unfold range_within in Hr. simpl in Hr.
      assert (Hnb' : zlen (ranges_ids pre) + (e - b) <= nb).
      { rewrite Hnb, Hl. change ((b, e) :: post) with ([(b, e)] ++ post). rewrite !ranges_ids_app, !zlen_app, ranges_ids_one, zlen_seqZ. simpl.
        pose proof (zlen_nonneg (ranges_ids post)). lia. }
      pose proof (zlen_nonneg (ranges_ids pre)).
      wstep. apply wp_copyc; try nia.
      intros dst' Hdl' Hd'. simpl. split; [|split].
      * rewrite ranges_ids_app, ranges_ids_one, zlen_app, zlen_seqZ. simpl. nia.
      * congruence.
      * intros k v j Hk Hj. rewrite Hd'. rewrite ranges_ids_app, ranges_ids_one in Hk. simpl in Hk.
        rewrite zlook_app in Hk. destruct (k <? zlen (ranges_ids pre)) eqn:Ek.
        -- replace ((w <=? k * da_nc d + j) && (k * da_nc d + j <? w + (e * da_nc d - b * da_nc d))) with false by nia.
           apply Hd; done.
        -- pose proof (zlook_Some_lt _ _ _ Hk) as Hk'. rewrite zlen_seqZ in Hk'. rewrite zlook_seqZ in Hk by lia. injection Hk as <-.
           replace ((w <=? k * da_nc d + j) && (k * da_nc d + j <? w + (e * da_nc d - b * da_nc d))) with true by nia.
           do 2 f_equal. nia.
    + intros [w dst] (_ & Hdl & Hd). simpl. split; [done|].
      assert (Hin : forall k v, ranges_ids ranges @ k = Some v -> 0 <= v < da_nt d).
      { intros k v Hk. apply zlook_elem in Hk. unfold ranges_ids in Hk. apply elem_of_list_In, in_concat in Hk as (x & Hx & Hv').
        apply elem_of_list_In, elem_of_list_fmap in Hx as (r & -> & Hr). apply elem_of_list_In, elem_of_seqZ in Hv'.
        apply Hall in Hr. unfold range_within in Hr. lia. }
      destruct (flat_all_some (da_nc d) nb dst) as [l ->]; [done|done| |].
      { intros k j Hk Hj. destruct (zlook_lt (ranges_ids ranges) k ltac:(lia)) as [v Hkv]. rewrite (Hd k v) by done.
        destruct (flat_lookup (da_nc d) (da_nt d) (da_vals d) v j) as [x ->]; [done|eauto|done|by eexists]. }
      rewrite zlen_fmap in Hdl. exists l. split; [done|]. split; [congruence|]. intros i t Hi.
      pose proof (zlook_Some_lt _ _ _ Hi). pose proof (Hin _ _ Hi).
      apply ij_eq; try done; try lia. cbn [da_nc da_vals]. intros j Hj. specialize (Hd i t j Hi Hj).
      rewrite zlook_fmap in Hd. destruct (l @ _), (da_vals d @ _); simpl in Hd; congruence.
Qed.

Lemma selectRanges_ok {A} (d : da A) ranges : da_alloc d = true -> da_wf d -> (forall x, x ∈ ranges -> range_within (da_nt d) x) ->
  exists l, mySelectByTupleRanges d ranges = Ok (DA true (da_nc d) (Some <$> l)) /\ zlen l = zlen (ranges_ids ranges) * da_nc d /\
       forall i t, ranges_ids ranges @ i = Some t -> forall j, ij (DA true (da_nc d) l) i j = ij d t j.
Proof.
  intros Ha Hwf Hall. pose proof (selectRanges_wp d ranges Ha Hwf) as Hw.
  destruct (mySelectByTupleRanges d ranges); simpl in Hw; try done.
  - destruct Hw as (_ & l & -> & Hl). eauto.
  - destruct Hw as (x & Hx & Hn). exfalso. auto.
Qed.

Lemma selectRanges_throw {A} (d : da A) ranges : da_alloc d = true -> da_wf d ->
  mySelectByTupleRanges d ranges = Throw <-> exists x, x ∈ ranges /\ ~ range_within (da_nt d) x.
Proof.
  intros Ha Hwf. pose proof (selectRanges_wp d ranges Ha Hwf) as Hw. split.
  - intros H. rewrite H in Hw. done.
  - intros (x & Hx & Hn). eapply wp_throw; [exact Hw|]. intros a [Hall _]. auto.
Qed.

(** * Inversion *)

Lemma wp_scatter1 {S} n m (p : list Z) (f : Z -> S) (good : Z -> Prop) (d0 : list (option S)) (body : Z -> list (option S) -> res (list (option S)))
  (Q : list (option S) -> Prop) (T : Prop) :
  0 <= n -> zlen p = n -> zlen d0 = m ->
  (forall i v dst, 0 <= i < n -> p @ i = Some v -> zlen dst = m ->
     (0 <= v < m /\ good v /\ body i dst = wrc dst v (f i)) \/
     (~ 0 <= v < m /\ good v /\ body i dst = Ok dst) \/
     (~ good v /\ body i dst = Throw)) ->
  (forall dst, zlen dst = m ->
     (forall t k, 0 <= t < m -> last_pos p t k -> dst @ t = Some (Some (f k))) ->
     (forall t, t ∉ p -> dst @ t = d0 @ t) -> (forall v, v ∈ p -> good v) -> Q dst) ->
  ((exists v, v ∈ p /\ ~ good v) -> T) ->
  wp (forZ 0 n body d0) Q T.
Proof.
  intros Hn Hp Hd0 Hbody HQ HT.
  apply (wp_forZ (fun i dst => zlen dst = m /\
     (forall t k, 0 <= t < m -> last_pos (take (Z.to_nat i) p) t k -> dst @ t = Some (Some (f k))) /\
     (forall t, t ∉ take (Z.to_nat i) p -> dst @ t = d0 @ t) /\
     (forall k v, 0 <= k < i -> p @ k = Some v -> good v))).
  - done.
  - change (take (Z.to_nat 0) p) with (@nil Z). split; [done|]. split; [|split; [done|lia]].
    intros t k _ [H _]. rewrite zlook_nil in H. done.
  - intros i dst Hi (Hl & H1 & H2 & Hg). destruct (zlook_lt p i ltac:(lia)) as [v Hv].
    assert (Htk : zlen (take (Z.to_nat i) p) = i) by (rewrite zlen_take; lia).
    rewrite (take_succ _ _ _ Hv).
    destruct (Hbody i v dst Hi Hv Hl) as [(Hv' & Hgv & ->)|[(Hv' & Hgv & ->)|(Hgv & ->)]].
    + apply wp_wrc; [lia|]. split; [rewrite zlen_zset; done|]. split; [|split].
      * intros t k Ht Hk. rewrite zlook_zset by lia. destruct (Z.eqb_spec t v) as [->|Hne].
        -- pose proof (last_pos_unique _ _ _ _ Hk (last_pos_snoc_same _ _)) as ->. rewrite Htk. done.
        -- apply H1; [done|]. eapply last_pos_snoc_ne; done.
      * intros t Hnot. rewrite zlook_zset by lia. destruct (Z.eqb_spec t v) as [->|Hne].
        -- exfalso. apply Hnot. apply elem_of_app. right. by apply elem_of_list_singleton.
        -- apply H2. intros Hin. apply Hnot. apply elem_of_app. by left.
      * intros k w Hk Hw. destruct (decide (k = i)) as [->|]; [|apply (Hg k w); [lia|done]]. congruence.
    + simpl. split; [done|]. split; [|split].
      * intros t k Ht Hk. apply H1; [done|]. eapply last_pos_snoc_ne; [|done]. intros ->. done.
      * intros t Hnot. apply H2. intros Hin. apply Hnot. apply elem_of_app. by left.
      * intros k w Hk Hw. destruct (decide (k = i)) as [->|]; [|apply (Hg k w); [lia|done]]. congruence.
    + simpl. apply HT. exists v. split; [|done]. eapply zlook_elem; done.
  - intros dst (Hl & H1 & H2 & Hg).
    assert (Htk : take (Z.to_nat n) p = p) by (apply take_ge; unfold zlen in Hp; lia). rewrite Htk in *.
    apply HQ; [done..|]. intros v [k Hk]%elem_of_zlook. apply (Hg k); [|done]. apply zlook_Some_lt in Hk. lia.
Qed.


Lemma invertO2N_wp l m : 0 <= m ->
  wp (invertArrayO2N2N2O (vec l) m)
    (fun r => (forall v, v ∈ l -> o2n_ok m v) /\ zlen r = m /\
      (forall t i, 0 <= t < m -> last_pos l t i -> r @ t = Some (Some i)) /\
      (forall t, 0 <= t < m -> t ∉ l -> r @ t = Some None))
    (exists v, v ∈ l /\ ~ o2n_ok m v).
Proof.
  intros Hm. unfold invertArrayO2N2N2O. wstep. apply wp_alloc; [done..|]. rewrite Z.mul_1_l. rewrite da_nt_vec.
  eapply (wp_scatter1 (zlen l) m l (fun i => i) (o2n_ok m)).
  - apply zlen_nonneg.
  - done.
  - rewrite zlen_malloc. lia.
  - intros i v dst Hi Hv Hdl. cbn [vec da_vals]. rewrite (rd_ok _ _ _ Hv). simpl. unfold o2n_ok.
    destruct (Z.eqb_spec v (-1)) as [->|Hne]; simpl; [right; left; split; [lia|split; [lia|done]]|].
    destruct ((0 <=? v) && (v <? m)) eqn:E; [left|right; right]; (split; [lia|]); [split; [lia|]|]; done.
  - intros dst Hdl H1 H2 Hg. split; [done|]. split; [done|]. split; [done|]. intros t Ht Hnot.
    rewrite H2 by done. apply zlook_malloc. done.
  - auto.
Qed.

Lemma first_last_rev {A} (l : list A) x k : last_pos (rev l) x k <-> first_pos l x (zlen l - 1 - k).
Proof.
  split.
  - intros [H H']. pose proof (zlook_Some_lt _ _ _ H) as Hk. rewrite zlen_rev in Hk. rewrite zlook_rev in H by lia.
    split; [done|]. intros k' Hk' Hx. pose proof (zlook_Some_lt _ _ _ Hx).
    apply (H' (zlen l - 1 - k')); [lia|]. rewrite zlook_rev by lia. rewrite <- Hx. f_equal. lia.
  - intros [H H']. pose proof (zlook_Some_lt _ _ _ H) as Hk. split.
    + rewrite zlook_rev by lia. done.
    + intros k' Hk' Hx. pose proof (zlook_Some_lt _ _ _ Hx) as Hk''. rewrite zlen_rev in Hk''. rewrite zlook_rev in Hx by lia.
      apply (H' (zlen l - 1 - k')); [lia|done].
Qed.

Lemma invertO2NBis_wp l m : 0 <= m ->
  wp (invertArrayO2N2N2OBis (vec l) m)
    (fun r => (forall v, v ∈ l -> o2n_ok m v) /\ zlen r = m /\
      (forall t i, 0 <= t < m -> first_pos l t i -> r @ t = Some (Some i)) /\
      (forall t, 0 <= t < m -> t ∉ l -> r @ t = Some None))
    (exists v, v ∈ l /\ ~ o2n_ok m v).
Proof.
  intros Hm. unfold invertArrayO2N2N2OBis. wstep. apply wp_alloc; [done..|]. rewrite Z.mul_1_l. rewrite da_nt_vec.
  eapply (wp_scatter1 (zlen l) m (rev l) (fun k => zlen l - 1 - k) (o2n_ok m)).
  - apply zlen_nonneg.
  - apply zlen_rev.
  - rewrite zlen_malloc. lia.
  - intros i v dst Hi Hv Hdl. cbn [vec da_vals]. rewrite zlook_rev in Hv by done. rewrite (rd_ok _ _ _ Hv). simpl. unfold o2n_ok.
    destruct (Z.eqb_spec v (-1)) as [->|Hne]; simpl; [right; left; split; [lia|split; [lia|done]]|].
    destruct ((0 <=? v) && (v <? m)) eqn:E; [left|right; right]; (split; [lia|]); [split; [lia|]|]; done.
  - intros dst Hdl H1 H2 Hg. split; [intros v Hv; apply Hg; apply elem_of_list_In; rewrite <- in_rev; apply elem_of_list_In; done|].
    split; [done|]. split.
    + intros t i Ht Hi. rewrite (H1 t (zlen l - 1 - i)); [do 2 f_equal; lia|done|]. apply first_last_rev.
      replace (zlen l - 1 - (zlen l - 1 - i)) with i by lia. done.
    + intros t Ht Hnot. rewrite H2; [apply zlook_malloc; done|]. intros Hin. apply Hnot. apply elem_of_list_In.
      rewrite in_rev. apply elem_of_list_In. done.
  - intros (v & Hin & Hv). exists v. split; [|done]. apply elem_of_list_In. rewrite in_rev. apply elem_of_list_In. done.
Qed.

Lemma invertN2O_wp l m : 0 <= m ->
  wp (invertArrayN2O2O2N (vec l) m)
    (fun r => ~ out_of_range m l /\ zlen r = m /\
      (forall t i, 0 <= t < m -> last_pos l t i -> r @ t = Some (Some i)) /\
      (forall t, 0 <= t < m -> t ∉ l -> r @ t = Some (Some (-1))))
    (out_of_range m l).
Proof.
  intros Hm. unfold invertArrayN2O2O2N, checkAllocated. simpl. wstep. apply wp_alloc; [done..|]. rewrite Z.mul_1_l. rewrite da_nt_vec.
  assert (Hlen : length (malloc Z m) = Z.to_nat m) by (unfold malloc; apply replicate_length). rewrite Hlen.
  eapply (wp_scatter1 (zlen l) m l (fun i => i) (fun v => 0 <= v < m)).
  - apply zlen_nonneg.
  - done.
  - rewrite zlen_replicate. lia.
  - intros i v dst Hi Hv Hdl. cbn [vec da_vals]. rewrite (rd_ok _ _ _ Hv). simpl.
    destruct ((0 <=? v) && (v <? m)) eqn:E; [left|right; right]; (split; [lia|]); [split; [lia|]|]; done.
  - intros dst Hdl H1 H2 Hg. split; [intros (v & Hin & Hv); apply Hv; auto|]. split; [done|]. split; [done|]. intros t Ht Hnot.
    rewrite H2 by done. apply zlook_replicate. lia.
  - auto.
Qed.

Lemma invertO2N_ok l m : 0 <= m -> (forall v, v ∈ l -> o2n_ok m v) ->
  exists r, invertArrayO2N2N2O (vec l) m = Ok r /\ zlen r = m /\
      (forall t i, 0 <= t < m -> last_pos l t i -> r @ t = Some (Some i)) /\
      (forall t, 0 <= t < m -> t ∉ l -> r @ t = Some None).
Proof.
  intros Hm Hg. pose proof (invertO2N_wp l m Hm) as Hw. destruct (invertArrayO2N2N2O (vec l) m); simpl in Hw; try done.
  - destruct Hw as (_ & Hw). eauto.
  - destruct Hw as (v & Hin & Hv). exfalso. auto.
Qed.
Lemma invertO2N_throw l m : 0 <= m -> invertArrayO2N2N2O (vec l) m = Throw <-> exists v, v ∈ l /\ ~ o2n_ok m v.
Proof.
  intros Hm. pose proof (invertO2N_wp l m Hm) as Hw. split.
  - intros H. rewrite H in Hw. done.
  - intros (v & Hin & Hv). eapply wp_throw; [exact Hw|]. intros a [Hall _]. auto.
Qed.
Lemma invertO2NBis_ok l m : 0 <= m -> (forall v, v ∈ l -> o2n_ok m v) ->
  exists r, invertArrayO2N2N2OBis (vec l) m = Ok r /\ zlen r = m /\
      (forall t i, 0 <= t < m -> first_pos l t i -> r @ t = Some (Some i)) /\
      (forall t, 0 <= t < m -> t ∉ l -> r @ t = Some None).
Proof.
  intros Hm Hg. pose proof (invertO2NBis_wp l m Hm) as Hw. destruct (invertArrayO2N2N2OBis (vec l) m); simpl in Hw; try done.
  - destruct Hw as (_ & Hw). eauto.
  - destruct Hw as (v & Hin & Hv). exfalso. auto.
Qed.
Lemma invertO2NBis_throw l m : 0 <= m -> invertArrayO2N2N2OBis (vec l) m = Throw <-> exists v, v ∈ l /\ ~ o2n_ok m v.
Proof.
  intros Hm. pose proof (invertO2NBis_wp l m Hm) as Hw. split.
  - intros H. rewrite H in Hw. done.
  - intros (v & Hin & Hv). eapply wp_throw; [exact Hw|]. intros a [Hall _]. auto.
Qed.
Lemma invertN2O_ok l m : 0 <= m -> ~ out_of_range m l ->
  exists r, invertArrayN2O2O2N (vec l) m = Ok (Some <$> r) /\ zlen r = m /\
      (forall t i, 0 <= t < m -> last_pos l t i -> r @ t = Some i) /\
      (forall t, 0 <= t < m -> t ∉ l -> r @ t = Some (-1)).
Proof.
  intros Hm Hg. pose proof (invertN2O_wp l m Hm) as Hw. destruct (invertArrayN2O2O2N (vec l) m) as [r| | |]; simpl in Hw; try done.
  destruct Hw as (_ & Hl & H1 & H2).
  destruct (all_some r) as [r' ->].
  { intros i Hi. destruct (decide (i ∈ l)) as [Hin|Hin].
    - destruct (last_pos_exists l i Hin) as [k Hk]. exists k. apply H1; [lia|done].
    - exists (-1). apply H2; [lia|done]. }
  rewrite zlen_fmap in Hl. exists r'. split; [done|]. split; [done|]. split.
  - intros t i Ht Hi. specialize (H1 t i Ht Hi). rewrite zlook_fmap in H1. destruct (r' @ t); simpl in H1; congruence.
  - intros t Ht Hi. specialize (H2 t Ht Hi). rewrite zlook_fmap in H2. destruct (r' @ t); simpl in H2; congruence.
Qed.
Lemma invertN2O_throw l m : 0 <= m -> invertArrayN2O2O2N (vec l) m = Throw <-> out_of_range m l.
Proof.
  intros Hm. pose proof (invertN2O_wp l m Hm) as Hw. split.
  - intros H. rewrite H in Hw. done.
  - intros Ho. eapply wp_throw; [exact Hw|]. intros a [Hall _]. auto.
Qed.

Lemma perm_o2n_ok n l : is_perm n l -> forall v, v ∈ l -> o2n_ok n v.
Proof. intros Hp v Hv. right. eapply perm_elem; done. Qed.

(** The inverse of a permutation. *)
Lemma invertO2N_perm l n : 0 <= n -> is_perm n l ->
  exists r, invertArrayO2N2N2O (vec l) n = Ok (Some <$> r) /\ is_perm n r /\ (forall i t, l @ i = Some t <-> r @ t = Some i).
Proof.
  intros Hn Hp. destruct (invertO2N_ok l n Hn (perm_o2n_ok _ _ Hp)) as (r & Hr & Hl & H1 & _).
  pose proof (perm_len _ _ Hn Hp) as Hpl.
  destruct (all_some r) as [r' ->].
  { intros t Ht. destruct (perm_surj _ _ t Hp) as [i Hi]; [lia|]. exists i. apply H1; [lia|]. eapply perm_last; done. }
  rewrite zlen_fmap in Hl.
  assert (Hiff : forall i t, l @ i = Some t <-> r' @ t = Some i).
  { assert (Hto : forall i t, l @ i = Some t -> r' @ t = Some i).
    { intros i t Hi. specialize (H1 t i (perm_range _ _ _ _ Hp Hi) (perm_last _ _ _ _ Hp Hi)).
      rewrite zlook_fmap in H1. destruct (r' @ t); simpl in H1; congruence. }
    intros i t. split; [apply Hto|]. intros Ht. pose proof (zlook_Some_lt _ _ _ Ht).
    destruct (perm_surj _ _ t Hp) as [k Hk]; [lia|]. pose proof (Hto k t Hk). congruence. }
  exists r'. split; [done|]. split; [|done].
  apply perm_intro; [done| |].
  - intros t i Ht. apply Hiff in Ht. apply zlook_Some_lt in Ht. lia.
  - apply NoDup_zlook. intros i j x Hi Hj. apply Hiff in Hi, Hj. congruence.
Qed.

Lemma invertO2N_twice l n : 0 <= n -> is_perm n l ->
  exists r, invertArrayO2N2N2O (vec l) n = Ok (Some <$> r) /\ invertArrayO2N2N2O (vec r) n = Ok (Some <$> l).
Proof.
  intros Hn Hp. destruct (invertO2N_perm l n Hn Hp) as (r & Hr & Hpr & Hiff). exists r. split; [done|].
  destruct (invertO2N_perm r n Hn Hpr) as (l' & Hr' & _ & Hiff'). rewrite Hr'. do 2 f_equal.
  apply zlook_ext. intros i. destruct (l @ i) as [t|] eqn:E.
  - apply Hiff', Hiff. done.
  - destruct (l' @ i) as [t|] eqn:E'; [|done]. apply Hiff', Hiff in E'. congruence.
Qed.

Lemma invert_variants_agree l n : 0 <= n -> is_perm n l ->
  invertArrayN2O2O2N (vec l) n = invertArrayO2N2N2O (vec l) n /\ invertArrayO2N2N2OBis (vec l) n = invertArrayO2N2N2O (vec l) n.
Proof.
  intros Hn Hp. destruct (invertO2N_perm l n Hn Hp) as (r & Hr & Hpr & Hiff). rewrite Hr.
  pose proof (perm_len _ _ Hn Hpr) as Hrl. split.
  - destruct (invertN2O_ok l n Hn (perm_not_out _ _ Hp)) as (r' & -> & Hl' & H1 & _). do 2 f_equal.
    apply zlook_ext_lt; [congruence|]. intros t Ht. destruct (perm_surj _ _ t Hp) as [i Hi]; [lia|].
    rewrite (H1 t i); [symmetry; apply Hiff; done|lia|eapply perm_last; done].
  - destruct (invertO2NBis_ok l n Hn (perm_o2n_ok _ _ Hp)) as (r' & -> & Hl' & H1 & _). f_equal.
    apply zlook_ext_lt; [rewrite zlen_fmap; congruence|]. intros t Ht. destruct (perm_surj _ _ t Hp) as [i Hi]; [lia|].
    rewrite (H1 t i); [|lia|].
    + rewrite zlook_fmap. apply Hiff in Hi. rewrite Hi. done.
    + split; [done|]. intros k Hk Hk'. pose proof (perm_inj _ _ _ _ _ Hp Hi Hk'). lia.
Qed.

Lemma invertO2N_surjective l m : 0 <= m -> (forall v, v ∈ l -> o2n_ok m v) -> (forall t, 0 <= t < m -> t ∈ l) ->
  exists r, invertArrayO2N2N2O (vec l) m = Ok (Some <$> r) /\ zlen r = m /\ forall t i, r @ t = Some i -> l @ i = Some t.
Proof.
  intros Hm Hok Hsurj. destruct (invertO2N_ok l m Hm Hok) as (r & Hr & Hl & H1 & _).
  destruct (all_some r) as [r' ->].
  { intros t Ht. destruct (last_pos_exists l t) as [i Hi]; [apply Hsurj; lia|]. exists i. apply H1; [lia|done]. }
  rewrite zlen_fmap in Hl. exists r'. split; [done|]. split; [done|]. intros t i Ht.
  pose proof (zlook_Some_lt _ _ _ Ht). destruct (last_pos_exists l t) as [k Hk]; [apply Hsurj; lia|].
  specialize (H1 t k ltac:(lia) Hk). rewrite zlook_fmap, Ht in H1. simpl in H1. injection H1 as ->. apply Hk.
Qed.

Lemma invertOpt_ok d : da_alloc d = true -> da_nc d = 1 ->
  exists m, invertArrayN2O2O2NOptimized d = Ok m /\
    forall v i, m !! v = Some i <-> last_pos (da_vals d) v i.
Proof.
  intros Ha Hnc.
  assert (Hw : wp (invertArrayN2O2O2NOptimized d) (fun m : gmap Z Z => forall v i, m !! v = Some i <-> last_pos (da_vals d) v i) False).
  { unfold invertArrayN2O2O2NOptimized, checkAllocated, checkOneComp. rewrite Ha, Hnc. simpl. rewrite da_nt_one by done.
    set (l := da_vals d).
    apply (wp_forZ (fun i m => forall v k, m !! v = Some k <-> last_pos (take (Z.to_nat i) l) v k)).
    - apply zlen_nonneg.
    - intros v k. rewrite lookup_empty. split; [done|]. intros [H _]. change (take (Z.to_nat 0) l) with (@nil Z) in H. rewrite zlook_nil in H. done.
    - intros i m Hi Hm. wstep. apply wp_rd; [done|]. intros x Hx. simpl. intros v k. rewrite (take_succ _ _ _ Hx).
      assert (Htk : zlen (take (Z.to_nat i) l) = i) by (rewrite zlen_take; lia).
      rewrite lookup_insert_Some. split.
      + intros [[-> ->]|[Hne Hk]].
        * rewrite <- Htk at 2. apply last_pos_snoc_same.
        * apply Hm in Hk as [Hk Hk']. split.
          -- rewrite zlook_app_l; [done|]. apply zlook_Some_lt in Hk. lia.
          -- intros k' Hlt. rewrite zlook_app. destruct (_ <? _); [auto|]. rewrite zlook_cons. destruct (_ =? 0); [congruence|]. rewrite zlook_nil. done.
      + intros Hlp. destruct (decide (x = v)) as [->|Hne].
        * left. split; [done|]. pose proof (last_pos_unique _ _ _ _ Hlp (last_pos_snoc_same _ _)). lia.
        * right. split; [done|]. apply Hm. eapply last_pos_snoc_ne; [|done]. congruence.
    - intros m Hm. rewrite take_ge in Hm; [done|]. unfold zlen. lia. }
  apply wp_ok in Hw. done.
Qed.

Lemma giveN2O_ok d : da_alloc d = true -> da_nc d = 1 ->
  exists m, giveN2OOptimized d = Ok m /\ forall i, m !! i = da_vals d @ i.
Proof.
  intros Ha Hnc.
  assert (Hw : wp (giveN2OOptimized d) (fun m : gmap Z Z => forall i, m !! i = da_vals d @ i) False).
  { unfold giveN2OOptimized, checkAllocated, checkOneComp. rewrite Ha, Hnc. simpl. rewrite da_nt_one by done.
    apply (wp_forZ (fun i m => forall k, m !! k = if k <? i then da_vals d @ k else None)).
    - apply zlen_nonneg.
    - intros k. rewrite lookup_empty. destruct (k <? 0) eqn:E; [|done]. rewrite zlook_neg by lia. done.
    - intros i m Hi Hm. wstep. apply wp_rd; [done|]. intros x Hx. simpl. intros k.
      destruct (decide (i = k)) as [->|Hne].
      + rewrite lookup_insert. replace (k <? k + 1) with true by lia. done.
      + rewrite lookup_insert_ne by done. rewrite Hm. replace (k <? i + 1) with (k <? i) by lia. done.
    - intros m Hm k. rewrite Hm. destruct (k <? zlen (da_vals d)) eqn:E; [done|]. rewrite zlook_ge by lia. done. }
  apply wp_ok in Hw. done.
Qed.

Lemma renumberInPlace_total {A} (d : da A) p : da_alloc d = true -> da_wf d -> zlen p = da_nt d ->
  (exists cells, renumberInPlace d p = (Ok tt, DA (da_alloc d) (da_nc d) cells) /\ zlen cells = zlen (da_vals d) /\
     ~ out_of_range (da_nt d) p) \/
  (renumberInPlace d p = (Throw, DA (da_alloc d) (da_nc d) (Some <$> da_vals d)) /\ out_of_range (da_nt d) p).
Proof.
  intros Ha Hwf Hp. destruct (da_wf_len d Hwf) as (Hv & _).
  destruct (renumberInPlace_wp d p Ha Hwf Hp) as [(cells & H1 & [H2 _] & H3)|H]; [left|by right].
  exists cells. split; [done|]. split; [congruence|done].
Qed.

Lemma slice_refuted : exists (d : da Z) bg en st l,
  da_alloc d = true /\ da_wf d /\ valid_range bg en st /\ is_range_list bg en st l /\
  mySelectByTupleIdSafe d l = Throw /\ mySelectByTupleIdSafeSlice d bg en st = UB.
Proof.
  exists (vec [5; 6]), 0, 4, 2, [0; 2].
  assert (Hv : valid_range 0 4 2) by (unfold valid_range; lia).
  split; [done|]. split; [split; [done|]; exists 2; done|]. split; [done|]. split; [|vm_compute; done].
  destruct (range_ok 0 4 2 Hv) as (l & HR & Hl). change (Range 0 4 2) with (Ok (Some <$> [0; 2])) in HR. injection HR as HR.
  apply (Some_fmap_inj [0; 2] l) in HR. subst l. done.
Qed.

Lemma subArray_refuted : exists (d : da Z) bg en, da_alloc d = true /\ da_wf d /\ subArray d bg en = UB.
Proof.
  exists (vec [5; 6]), 1, 0. split; [done|]. split; [split; [done|]; exists 2; done|]. vm_compute. done.
Qed.
