From Coq Require Import QArith Qabs ZifyBool ZifyNat.
From stdpp Require Import gmap.
From Verif Require Import Base DataArray ArrLib FillLib RenumModel RenumSpec RenumProofs PartModel PartSpec PartProofs4 TreeModel TreeSpec TreeProofs5 TreeProofs10 IndexModel IndexSpec IndexProofs4 IndexProofs6 SkyModel SkySpec SkyProofs SkyProofs4 CellTable UmModel UmSpec UmProofs UmProofs2 UmProofs3 UmProofs4 UmProofs5.
Local Open Scope Z_scope.

(** * mergeNodes *)
Lemma perm_id (r : list Z) n : zlen r = n -> (forall v, v ∈ r <-> 0 <= v < n) -> ordered_by_first r -> forall i, 0 <= i < n -> r @ i = Some i.
Proof.
  intros Hl Hv Ho. assert (Hnd : NoDup r).
  { assert (seqZ 0 n ⊆+ r) as Hs by (apply NoDup_submseteq; [apply NoDup_seqZ|]; intros x Hx; apply elem_of_seqZ in Hx; apply Hv; lia).
    apply submseteq_Permutation_length_le in Hs; [|rewrite seqZ_length; unfold zlen in Hl; lia]. rewrite <- Hs. apply NoDup_seqZ. }
  assert (Hf : forall i v, r @ i = Some v -> first_pos r v i).
  { intros i v Hi. split; [done|]. intros k Hk E. apply zlook_Some_lt in Hi as ?. apply zlook_Some_lt in E as ?. rewrite zlook_to_nat in Hi, E by lia. pose proof (NoDup_lookup _ _ _ _ Hnd Hi E). lia. }
  assert (Hinc : forall i j v w, r @ i = Some v -> r @ j = Some w -> i < j -> v < w) by (intros i j v w Hi Hj; apply (Ho i j v w (Hf _ _ Hi) (Hf _ _ Hj))).
  assert (Hge : forall i, 0 <= i -> forall v, r @ i = Some v -> i <= v).
  { apply (natlike_ind (fun i => forall v, r @ i = Some v -> i <= v)).
    - intros v E. apply zlook_elem in E. apply Hv in E. lia.
    - intros i Hi IH v E. apply zlook_Some_lt in E as ?. destruct (zlook_lt r i) as [u Hu]; [lia|]. specialize (IH u Hu). pose proof (Hinc i (Z.succ i) u v Hu E). lia. }
  assert (Hle : forall k, 0 <= k -> forall v, r @ (n - 1 - k) = Some v -> v <= n - 1 - k).
  { apply (natlike_ind (fun k => forall v, r @ (n - 1 - k) = Some v -> v <= n - 1 - k)).
    - intros v E. apply zlook_elem in E. apply Hv in E. lia.
    - intros k Hk IH v E. apply zlook_Some_lt in E as ?. destruct (zlook_lt r (n - 1 - k)) as [u Hu]; [lia|]. specialize (IH u Hu). pose proof (Hinc _ _ _ _ E Hu). lia. }
  intros i Hi. destruct (zlook_lt r i) as [v Hvi]; [lia|]. pose proof (Hge i ltac:(lia) v Hvi). pose proof (Hle (n - 1 - i) ltac:(lia) v). replace (n - 1 - (n - 1 - i)) with i in * by lia. rewrite Hvi. f_equal. auto with lia.
Qed.
Lemma rename_id cells p nb : (forall n, used cells n -> n < nb) -> (forall i, 0 <= i < nb -> p @ i = Some i) -> rename (ren p) <$> cells = cells.
Proof.
  intros Hu Hp. transitivity (id <$> cells); [|apply list_fmap_id]. apply list_fmap_ext. intros i c Hi. apply elem_of_list_lookup_2 in Hi. unfold rename, id. destruct c as [t ns]. cbn [fst snd]. f_equal. transitivity (id <$> ns); [|apply list_fmap_id].
  apply list_fmap_ext. intros k v Hk. apply elem_of_list_lookup_2 in Hk. unfold id, ren. destruct (0 <=? v) eqn:E; [|done]. rewrite Hp; [done|]. split; [lia|]. apply Hu. split; [lia|]. exists (t, ns). done.
Qed.
Section Merge.
Context (m : umesh) (cells : list cell) (nb : Z) (d : da Q) (prec : Q).
Hypothesis Hs : stores m cells.
Hypothesis Hty : typed m cells.
Hypothesis Hd : um_coords m = Some d.
Hypothesis Ha : da_alloc d = true.
Hypothesis Hw : da_wf d.
Hypothesis Hnc : 1 <= da_nc d <= 4.
Hypothesis Hnb : da_nt d = nb.
Hypothesis Hu : forall n, used cells n -> n < nb.
Let N := fun i j => near (da_vals d) (da_nc d) i prec (da_vals d) j.
Hypothesis Htr : transitive_on nb N.

Lemma perm_ok : exists r K, buildPermArrayForMergeNode m prec (-1) = Ok (r, K) /\ zlen r = nb /\ 0 <= K <= nb /\
  (forall i j a b, r @ i = Some a -> r @ j = Some b -> a = b <-> i = j \/ N i j) /\ (forall v, v ∈ r <-> 0 <= v < K) /\ ordered_by_first r.
Proof.
  destruct (common_ok d prec (-1) Ha Hw Hnc) as (gs & c & cI & E & Hsky & Hgr & Hcl). rewrite Hnb in *. destruct (Hcl ltac:(lia) Htr) as (Hnd & Hsame & Hleast).
  unfold buildPermArrayForMergeNode, getNumberOfNodes. rewrite Hd, E. cbn [bind]. rewrite Hnb.
  destruct (da_wf_len d Hw) as (_ & Hnb0 & _). rewrite Hnb in Hnb0. destruct Hgr as (Hg1 & _).
  destruct (o2n_conv_ok gs nb Hnb0 (nodup_unique _ Hnd)) with (arr := c) (arrI := cI) as (r & K & Eo & Hl & Hs2 & Hv & Ho).
  - intros p Hp. destruct (Hleast p Hp) as (h & rest & -> & _ & Hlt). exists h. split; [done|]. destruct (Hg1 _ Hp) as (_ & h' & rest' & [= <- <-] & _ & Hh & _). split; [done|]. intros x Hx. apply elem_of_cons in Hx as [->|Hx]; [lia|]. specialize (Hlt x Hx). lia.
  - done.
  - intros x Hx. apply (elem_concat gs) in Hx as (p & Hp & Hx). destruct (Hg1 _ Hp) as (_ & h & rest & -> & _ & Hh & He). apply elem_of_cons in Hx as [->|Hx]; [done|]. apply He in Hx. tauto.
  - rewrite Eo. cbn [bind]. rewrite initialised_ok. cbn [bind]. exists r, K. split; [done|]. split; [done|].
    assert (HK : K <= nb). { destruct (decide (K <= 0)); [lia|]. assert (zlen (seqZ 0 K) <= zlen r); [|unfold zlen in *; rewrite seqZ_length in *; lia]. unfold zlen. apply Nat2Z.inj_le, submseteq_length, NoDup_submseteq; [apply NoDup_seqZ|]. intros x Hx. apply elem_of_seqZ in Hx. apply Hv. lia. }
    assert (HK0 : 0 <= K).
    { destruct r as [|x r']; [|assert (x ∈ x :: r') as Hx by left; apply Hv in Hx; lia]. rewrite zlen_nil in Hl. subst nb. revert Eo. rewrite <- Hl. unfold ConvertIndexArrayToO2N. destruct (alloc Z 0 1); cbn [bind]; try done.
      destruct (forZ 0 (zlen cI - 1) _ _); cbn [bind]; try done. rewrite forZ_empty by lia. cbn [bind]. intros [= _ <-]. done. }
    split; [lia|]. split; [|done]. intros i j a b Hi Hj. rewrite (Hs2 i j a b Hi Hj). apply zlook_Some_lt in Hi as ?. apply zlook_Some_lt in Hj as ?. destruct (decide (i = j)) as [->|Hne]; [tauto|]. rewrite (Hsame i j Hne). intuition lia.
Qed.

Lemma near_close i j q q' : 0 <= i < nb -> 0 <= j < nb -> N i j -> point m i q -> point m j q' -> close prec q q'.
Proof.
  intros Hi Hj Hn (d1 & H1 & _ & _ & ->) (d2 & H2 & _ & _ & ->). rewrite Hd in H1, H2. injection H1 as <-. injection H2 as <-. rewrite <- Hnb in Hi, Hj.
  destruct (point_bound d i Hw Hi) as (B1 & B2 & B3 & B4). destruct (point_bound d j Hw Hj) as (C1 & C2 & C3 & C4). unfold close. apply Forall2_same_length_lookup. unfold sub. split.
  { apply Nat2Z.inj. change (zlen (take (Z.to_nat ((i + 1) * da_nc d - i * da_nc d)) (drop (Z.to_nat (i * da_nc d)) (da_vals d))) = zlen (take (Z.to_nat ((j + 1) * da_nc d - j * da_nc d)) (drop (Z.to_nat (j * da_nc d)) (da_vals d)))). rewrite !zlen_take, !zlen_drop. lia. }
  intros k x y Hx Hy. apply lookup_take_Some in Hx as [Hx Hk]. apply lookup_take_Some in Hy as [Hy _]. rewrite lookup_drop in Hx, Hy. specialize (Hn (Z.of_nat k)). unfold at_ in Hn.
  rewrite !zlook_to_nat in Hn by lia. replace (Z.to_nat (i * da_nc d + Z.of_nat k)) with (Z.to_nat (i * da_nc d) + k)%nat in Hn by lia. replace (Z.to_nat (j * da_nc d + Z.of_nat k)) with (Z.to_nat (j * da_nc d) + k)%nat in Hn by lia.
  rewrite Hx, Hy in Hn. apply Hn. lia.
Qed.
Lemma near_refl i : N i i.
Proof. intros k _. setoid_replace (at_ (da_vals d) (da_nc d) i k - at_ (da_vals d) (da_nc d) i k)%Q with 0%Q by ring. apply Qabs_nonneg. Qed.
Lemma merge_ok : exists m' r K, mergeNodes m prec = Ok (m', r, negb (nb =? K), K) /\ merged nb d prec r K /\
  stores m' (rename (ren r) <$> cells) /\ typed m' (rename (ren r) <$> cells) /\ um_dim m' = um_dim m /\ has_nodes m' K /\
  (forall a i q, last_pos r a i -> point m i q -> point m' a q) /\
  (forall i a q q', r @ i = Some a -> point m i q -> point m' a q' -> close prec q q').
Proof.
  destruct perm_ok as (r & K & E & Hl & HK & Hsame & Hv & Ho). unfold mergeNodes. rewrite E. cbn [bind]. unfold getNumberOfNodes. rewrite Hd. cbn [bind]. rewrite Hnb.
  assert (G : exists m', (if negb (nb =? K) then renumberNodes m r K else Ok m) = Ok m' /\ stores m' (rename (ren r) <$> cells) /\ typed m' (rename (ren r) <$> cells) /\ um_dim m' = um_dim m /\ has_nodes m' K /\
     (forall a i q, last_pos r a i -> point m i q -> point m' a q)).
  { destruct (Z.eqb_spec nb K) as [EK|EK]; cbn [negb].
    - exists m. split; [done|]. assert (Hid : forall i, 0 <= i < nb -> r @ i = Some i) by (apply perm_id; [done|by rewrite EK|done]). rewrite (rename_id cells r nb) by done. split; [done|]. split; [done|]. split; [done|]. split; [exists d; rewrite <- EK; done|].
      intros a i q [Hi _] Hp. apply zlook_Some_lt in Hi as Hr. rewrite Hid in Hi by lia. injection Hi as <-. done.
    - destruct (renumberNodes_ok m cells nb r K d) as (m' & Em & H1 & H2 & H3 & H4 & _ & H5); try done; try lia; [intros v Hx; apply Hv in Hx; lia|intros t Ht; by apply Hv|]. exists m'. split; [done|]. split; [done|]. split; [done|]. split; [done|]. split; [done|].
      intros a i q Hlp. apply H5; [|done]. destruct Hlp as [Hi _]. apply zlook_elem, Hv in Hi. lia. }
  destruct G as (m' & -> & G1 & G2 & G3 & G4 & G5). cbn [bind]. exists m', r, K. split; [done|]. split; [done|]. split; [done|]. split; [done|]. split; [done|]. split; [done|]. split; [done|].
  intros i a q q' Hi Hq Hq'. destruct (last_pos_exists r a) as [j Hj]; [eapply zlook_elem; done|]. apply zlook_Some_lt in Hi as ?. pose proof Hj as [Hja _]. apply zlook_Some_lt in Hja as ?.
  assert (Hpj : point m j (sub (da_vals d) (j * da_nc d) ((j + 1) * da_nc d))) by (exists d; rewrite Hnb; split; [done|]; split; [done|]; split; [lia|done]).
  rewrite (point_fun m' a q' _ Hq' (G5 a j _ Hj Hpj)). apply (near_close i j); [lia|lia| |done|done]. destruct (proj1 (Hsame i j a a Hi Hja) eq_refl) as [->|]; [apply near_refl|done].
Qed.
End Merge.
Lemma merge_throw m cells prec d : stores m cells -> um_coords m = Some d -> da_wf d -> ~ (da_alloc d = true /\ 1 <= da_nc d <= 4) -> mergeNodes m prec = Throw.
Proof.
  intros Hs Hd Hw Hn. unfold mergeNodes, buildPermArrayForMergeNode. rewrite Hd. rewrite (proj2 (common_throw d prec (-1) Hw) Hn). done.
Qed.

(** * renumberNodesCenter *)
Definition orig (p : list Z) (t n : Z) : list Z := List.filter (fun i => bool_decide (p @ i = Some t)) (seqZ 0 n).
Lemma orig_snoc p t n : 0 <= n -> orig p t (n + 1) = orig p t n ++ if bool_decide (p @ n = Some t) then [n] else [].
Proof.
  intros Hn. unfold orig. rewrite seqZ_app by lia. rewrite List.filter_app. f_equal.
Qed.
Lemma qsum_snoc l x : (qsum (l ++ [x]) == x + qsum l)%Q.
Proof. induction l as [|y l IH]; cbn [qsum app foldr]; [done|]. change (foldr Qplus 0%Q (l ++ [x])) with (qsum (l ++ [x])). rewrite IH. change (foldr Qplus 0%Q l) with (qsum l). ring. Qed.
Lemma flat_inj sd t k t' k' : 0 <= k < sd -> 0 <= k' < sd -> t * sd + k = t' * sd + k' -> t = t' /\ k = k'.
Proof. intros H1 H2 E. assert (t = t') by nia. subst. lia. Qed.
Section Center.
Context (m : umesh) (cells : list cell) (nb : Z) (d : da Q) (p : list Z) (newNb : Z).
Hypothesis Hs : stores m cells.
Hypothesis Hty : typed m cells.
Hypothesis Hd : um_coords m = Some d.
Hypothesis Hw : da_wf d.
Hypothesis Hnc : 0 < da_nc d.
Hypothesis Hnb : da_nt d = nb.
Hypothesis Hu : forall n, used cells n -> n < nb.
Hypothesis Hp : zlen p = nb.
Hypothesis H0 : 0 <= newNb.
Hypothesis Hv : forall v, v ∈ p -> 0 <= v < newNb.
Hypothesis Hall : forall t, 0 <= t < newNb -> t ∈ p.
Notation sd := (da_nc d).
Definition total (t k n : Z) : Q := qsum ((fun i => at_ (da_vals d) sd i k) <$> orig p t n).
Definition summed (f : Z -> Z -> Q) (pt : list Q) : Prop := zlen pt = newNb * sd /\ forall t k, 0 <= t < newNb -> 0 <= k < sd -> exists y, pt @ (t * sd + k) = Some y /\ (y == f t k)%Q.
Lemma add_loop i w pt : 0 <= i < nb -> p @ i = Some w -> summed (fun t k => total t k i) pt ->
  wp (forZ 0 sd (fun k pt => let* x := rd (da_vals d) (i * sd + k) in let* y := rd pt (w * sd + k) in wr pt (w * sd + k) (x + y)%Q) pt) (summed (fun t k => total t k (i + 1))) False.
Proof.
  intros Hi Hw' Hsum. assert (Hwr : 0 <= w < newNb) by (apply Hv; eapply zlook_elem; done). destruct (da_wf_len d Hw) as (Hvl & _ & _).
  apply (wp_forZ (fun K => summed (fun t k => if (t =? w) && (k <? K) then total t k (i + 1) else total t k i))); [lia|..].
  - destruct Hsum as [Hl Hsum]. split; [done|]. intros t k Ht Hk. replace ((t =? w) && (k <? 0)) with false by lia. auto.
  - intros K pt' HK (Hl & Hpt). destruct (zlook_lt (da_vals d) (i * sd + K)) as [x Hx]; [rewrite Hvl; nia|]. rewrite (rd_ok _ _ _ Hx). cbn [bind]. destruct (Hpt w K Hwr HK) as (y & Hy & Ey). rewrite (rd_ok _ _ _ Hy). cbn [bind].
    apply zlook_Some_lt in Hy as ?. rewrite wr_ok by lia. cbn [wp]. split; [rewrite zlen_zset; done|]. intros t k Ht Hk. rewrite zlook_zset by lia. destruct (Z.eqb_spec (t * sd + k) (w * sd + K)) as [E|E].
    + destruct (flat_inj sd t k w K Hk HK E) as [-> ->]. exists (x + y)%Q. split; [done|]. rewrite Z.eqb_refl. replace (K <? K + 1) with true by lia. replace (K <? K) with false in Ey by lia. rewrite Z.eqb_refl in Ey. cbn [andb] in *. rewrite Ey. unfold total.
      rewrite orig_snoc by lia. rewrite bool_decide_true by done. rewrite fmap_app. change ((fun i => at_ (da_vals d) sd i K) <$> [i]) with [at_ (da_vals d) sd i K]. rewrite qsum_snoc. unfold at_ at 2. rewrite Hx. done.
    + destruct (Hpt t k Ht Hk) as (y' & Hy' & Ey'). exists y'. split; [done|]. rewrite Ey'. destruct (Z.eqb_spec t w) as [->|]; [|done]. assert (k <> K) by (intros ->; done). cbn [andb]. replace (k <? K + 1) with (k <? K) by lia. done.
  - intros pt' (Hl & Hpt). split; [done|]. intros t k Ht Hk. destruct (Hpt t k Ht Hk) as (y & Hy & Ey). exists y. split; [done|]. rewrite Ey. destruct (Z.eqb_spec t w) as [->|Hne]; [replace (k <? sd) with true by lia; done|]. cbn [andb].
    unfold total. rewrite orig_snoc by lia. rewrite bool_decide_false by congruence. rewrite app_nil_r. done.
Qed.
Lemma center_ok : exists m', renumberNodesCenter m p newNb = Ok m' /\ stores m' (rename (ren p) <$> cells) /\ typed m' (rename (ren p) <$> cells) /\ um_dim m' = um_dim m /\ has_nodes m' newNb /\
  exists d', um_coords m' = Some d' /\ da_nc d' = sd /\ forall t k, 0 <= t < newNb -> 0 <= k < sd -> exists y, da_vals d' @ (t * sd + k) = Some y /\ (y * inject_Z (zlen (origins p t)) == qsum ((fun i => at_ (da_vals d) sd i k) <$> origins p t))%Q.
Proof.
  unfold renumberNodesCenter. rewrite Hd. unfold ifthrow. replace (newNb <? 0) with false by lia. rewrite alloc_ok by lia. cbn [bind].
  destruct (da_wf_len d Hw) as (Hvl & Hnt0 & _).
  match goal with |- context [forZ 0 (da_nt d) ?b (?p0, ?d0)] => assert (W : wp (forZ 0 (da_nt d) b (p0, d0)) (fun s => summed (fun t k => total t k nb) s.1 /\ zlen s.2 = newNb /\ forall t, 0 <= t < newNb -> s.2 @ t = Some (zlen (orig p t nb))) False) end.
  { apply (wp_forZ (fun n s => summed (fun t k => total t k n) s.1 /\ zlen s.2 = newNb /\ forall t, 0 <= t < newNb -> s.2 @ t = Some (zlen (orig p t n)))); [lia|..].
    - cbn [fst snd]. split; [split|split].
      + rewrite zlen_fmap, zlen_malloc. nia.
      + intros t k Ht Hk. exists 0%Q. split; [|done]. rewrite zlook_fmap, zlook_malloc by nia. done.
      + rewrite zlen_replicate. lia.
      + intros t Ht. rewrite zlook_replicate by lia. done.
    - intros i [pt dv] Hi (Hsum & Hdl & Hdv). cbn [fst snd] in *. rewrite Hnb in Hi. destruct (zlook_lt p i) as [w Hw']; [lia|]. rewrite (rd_ok _ _ _ Hw'). cbn [bind]. assert (Hwr : 0 <= w < newNb) by (apply Hv; eapply zlook_elem; done).
      eapply wp_bind'; [apply (add_loop i w pt Hi Hw' Hsum)|]. intros pt' Hsum'. rewrite (rd_ok _ _ _ (Hdv w Hwr)). cbn [bind]. rewrite wr_ok by lia. cbn [bind wp fst snd]. split; [done|]. split; [rewrite zlen_zset; done|].
      intros t Ht. rewrite zlook_zset by lia. rewrite orig_snoc by lia. destruct (Z.eqb_spec t w) as [->|Hne]; [rewrite bool_decide_true by done; rewrite zlen_app; done|]. rewrite bool_decide_false by congruence. rewrite app_nil_r. auto.
    - intros [pt dv] H. rewrite <- Hnb. rewrite Hnb in *. exact H. }
  destruct (forZ 0 (da_nt d) _ _) as [[pt dv]| | |]; cbn in W; try done. destruct W as (Hsum & Hdl & Hdv). cbn [bind].
  assert (Hor : forall t, 0 <= t < newNb -> 0 < zlen (orig p t nb)).
  { intros t Ht. specialize (Hall t Ht). apply elem_of_zlook in Hall as [i Hi]. apply zlook_Some_lt in Hi as ?. assert (i ∈ orig p t nb) as Hin by (unfold orig; apply elem_of_list_In, filter_In; split; [apply elem_of_list_In, elem_of_seqZ; lia|by apply bool_decide_eq_true]).
    destruct (orig p t nb); [by apply elem_of_nil in Hin|]. rewrite zlen_cons. pose proof (zlen_nonneg l). lia. }
  set (fin := fun t k => (total t k nb * (1 / inject_Z (zlen (orig p t nb))))%Q).
  match goal with |- context [forZ 0 newNb ?b pt] => assert (W : wp (forZ 0 newNb b pt) (summed fin) False) end.
  { apply (wp_forZ (fun T => summed (fun t k => if t <? T then fin t k else total t k nb))); [lia|..].
    - destruct Hsum as [Hl Hpt]. split; [done|]. intros t k Ht Hk. replace (t <? 0) with false by lia. auto.
    - intros T pt' HT Hpt. rewrite (rd_ok _ _ _ (Hdv T HT)). cbn [bind]. unfold ubif. pose proof (Hor T HT). replace (zlen (orig p T nb) =? 0) with false by lia.
      apply (wp_forZ (fun K => summed (fun t k => if (t <? T) || ((t =? T) && (k <? K)) then fin t k else total t k nb))); [lia|..].
      + destruct Hpt as [Hl Hpt]. split; [done|]. intros t k Ht Hk. replace ((t <? T) || ((t =? T) && (k <? 0))) with (t <? T) by lia. auto.
      + intros K pt2 HK (Hl & Hpt2). destruct (Hpt2 T K HT HK) as (y & Hy & Ey). rewrite (rd_ok _ _ _ Hy). cbn [bind]. apply zlook_Some_lt in Hy as ?. rewrite wr_ok by lia. cbn [wp]. split; [rewrite zlen_zset; done|]. intros t k Ht Hk. rewrite zlook_zset by lia.
        destruct (Z.eqb_spec (t * sd + k) (T * sd + K)) as [E|E].
        * destruct (flat_inj sd t k T K Hk HK E) as [-> ->]. eexists. split; [done|]. replace ((T <? T) || ((T =? T) && (K <? K + 1))) with true by lia. replace ((T <? T) || ((T =? T) && (K <? K))) with false in Ey by lia. unfold fin. rewrite Ey. done.
        * destruct (Hpt2 t k Ht Hk) as (y' & Hy' & Ey'). exists y'. split; [done|]. rewrite Ey'. assert (~ (t = T /\ k = K)) by (intros [-> ->]; done). replace ((t <? T) || ((t =? T) && (k <? K + 1))) with ((t <? T) || ((t =? T) && (k <? K))) by lia. done.
      + intros pt2 (Hl & Hpt2). split; [done|]. intros t k Ht Hk. destruct (Hpt2 t k Ht Hk) as (y' & Hy' & Ey'). exists y'. split; [done|]. rewrite Ey'. replace ((t <? T) || ((t =? T) && (k <? sd))) with (t <? T + 1) by lia. done.
    - intros pt' (Hl & Hpt). split; [done|]. intros t k Ht Hk. destruct (Hpt t k Ht Hk) as (y' & Hy' & Ey'). exists y'. split; [done|]. rewrite Ey'. replace (t <? newNb) with true by lia. done. }
  destruct (forZ 0 newNb _ pt) as [pt2| | |]; cbn in W; try done. destruct W as (Hl2 & Hpt2). cbn [bind].
  set (m1 := setCoords m (DA true sd pt2)). assert (Hs1 : stores m1 cells) by (destruct Hs as (c & ci & ?); exists c, ci; done).
  destruct (renumberConn_ok m1 cells p Hs1) as (m' & -> & Hs' & (Hdim & Hco & Hts)). { intros v Hx. rewrite Hp. auto. }
  exists m'. split; [done|]. split; [done|]. split; [by apply (typed_rename m)|]. split; [done|]. assert (Hd' : um_coords m' = Some (DA true sd pt2)) by (rewrite Hco; done).
  split; [exists (DA true sd pt2); split; [done|]; split; [done|]; split; [split; [cbn [da_nc]; lia|exists newNb; done]|apply da_nt_mul; lia]|].
  exists (DA true sd pt2). split; [done|]. split; [done|]. intros t k Ht Hk. destruct (Hpt2 t k Ht Hk) as (y & Hy & Ey). exists y. split; [done|]. rewrite Ey. unfold fin, total, origins. rewrite Hp. fold (orig p t nb). field. intros E. pose proof (Hor t Ht).
  assert (zlen (orig p t nb) = 0); [|lia]. unfold Qeq in E. cbn in E. lia.
Qed.
End Center.
Lemma center_merge_ok m cells nb d prec : stores m cells -> typed m cells -> um_coords m = Some d -> da_alloc d = true -> da_wf d -> 1 <= da_nc d <= 4 -> da_nt d = nb -> (forall n, used cells n -> n < nb) ->
  transitive_on nb (fun i j => near (da_vals d) (da_nc d) i prec (da_vals d) j) ->
  exists m' r K, mergeNodesCenter m prec = Ok (m', r, negb (nb =? K), K) /\ merged nb d prec r K /\
    stores m' (rename (ren r) <$> cells) /\ typed m' (rename (ren r) <$> cells) /\ um_dim m' = um_dim m /\ has_nodes m' K /\
    exists d', um_coords m' = Some d' /\ da_nc d' = da_nc d /\ forall t k, 0 <= t < K -> 0 <= k < da_nc d -> exists y, da_vals d' @ (t * da_nc d + k) = Some y /\ (y * inject_Z (zlen (origins r t)) == qsum ((fun i => at_ (da_vals d) (da_nc d) i k) <$> origins r t))%Q.
Proof.
  intros Hs Hty Hd Ha Hw Hnc Hnb Hu Htr. destruct (perm_ok m cells nb d prec) as (r & K & E & Hl & HK & Hsame & Hv & Ho); try done. unfold mergeNodesCenter. rewrite E. cbn [bind]. unfold getNumberOfNodes. rewrite Hd. cbn [bind]. rewrite Hnb.
  destruct (Z.eqb_spec nb K) as [EK|EK]; cbn [negb].
  - cbn [bind]. exists m, r, K. split; [replace (nb =? K) with true by lia; done|]. split; [done|]. assert (Hid : forall i, 0 <= i < nb -> r @ i = Some i) by (apply perm_id; [done|by rewrite EK|done]). rewrite (rename_id cells r nb) by done. split; [done|]. split; [done|]. split; [done|]. split; [exists d; rewrite <- EK; done|].
    exists d. split; [done|]. split; [done|]. intros t k Ht Hk. destruct (da_wf_len d Hw) as (Hvl & _ & _). destruct (zlook_lt (da_vals d) (t * da_nc d + k)) as [y Hy]; [rewrite Hvl; nia|]. exists y. split; [done|].
    assert (Hor : origins r t = [t]).
    { unfold origins. rewrite Hl. replace nb with (t + (1 + (nb - t - 1))) by lia. rewrite seqZ_app by lia. rewrite (seqZ_app (0 + t)) by lia. rewrite !List.filter_app. rewrite (seqZ_cons (0 + t) 1) by lia. rewrite Z.add_0_l. change (seqZ (Z.succ t) (Z.pred 1)) with (@nil Z). cbn [List.filter].
      rewrite bool_decide_true by (apply Hid; lia).
      assert (F : forall l, (forall x, x ∈ l -> 0 <= x < nb /\ x <> t) -> List.filter (fun i => bool_decide (r @ i = Some t)) l = []).
      { clear -Hid. induction l as [|x l IH]; intros H; [done|]. cbn [List.filter]. rewrite bool_decide_false; [apply IH; intros; apply H; by right|]. destruct (H x) as [H1 H2]; [left|]. rewrite Hid by done. congruence. }
      rewrite (F (seqZ 0 t)), (F (seqZ (t + 1) (nb - t - 1))); [done|..]; intros x Hx; apply elem_of_seqZ in Hx; lia. }
    rewrite Hor. change (zlen [t]) with 1. change ((fun i => at_ (da_vals d) (da_nc d) i k) <$> [t]) with [at_ (da_vals d) (da_nc d) t k]. cbn [qsum foldr]. unfold at_. rewrite Hy. cbn [default]. simpl. ring.
  - destruct (center_ok m cells nb d r K) as (m' & -> & H1 & H2 & H3 & H4 & H5); try done; try lia; [intros v Hx; apply Hv in Hx; lia|intros t Ht; by apply Hv|]. cbn [bind]. exists m', r, K. split; [replace (nb =? K) with false by lia; done|]. done.
Qed.
