From stdpp Require Import gmap.
From Verif Require Import Base DataArray ArrLib SlicesModel SlicesSpec SlicesProofs RenumModel RenumSpec.
From Coq Require Import ZifyBool ZifyNat.

(** * Permutations *)

Lemma perm_len n p : 0 <= n -> is_perm n p -> zlen p = n.
Proof. intros Hn H. unfold zlen. rewrite H, seqZ_length. lia. Qed.
Lemma perm_elem n p x : is_perm n p -> x ∈ p <-> 0 <= x < n.
Proof. intros H. rewrite H, elem_of_seqZ. lia. Qed.
Lemma perm_range n p i x : is_perm n p -> p @ i = Some x -> 0 <= x < n.
Proof. intros H Hi. apply (perm_elem n p); [done|]. eapply zlook_elem; done. Qed.
Lemma perm_nodup n p : is_perm n p -> NoDup p.
Proof. intros H. rewrite H. apply NoDup_seqZ. Qed.
Lemma perm_inj n p i j x : is_perm n p -> p @ i = Some x -> p @ j = Some x -> i = j.
Proof. intros H. apply NoDup_zlook, (perm_nodup n); done. Qed.
Lemma perm_surj n p x : is_perm n p -> 0 <= x < n -> exists i, p @ i = Some x.
Proof. intros H Hx. apply elem_of_zlook. apply (perm_elem n p); done. Qed.
Lemma perm_last n p i x : is_perm n p -> p @ i = Some x -> last_pos p x i.
Proof. intros H Hi. split; [done|]. intros k Hk Hk'. pose proof (perm_inj _ _ _ _ _ H Hi Hk'). lia. Qed.

(** A list of the right length with distinct in-range values is a permutation. *)
Lemma perm_intro n p : zlen p = n -> (forall i x, p @ i = Some x -> 0 <= x < n) -> NoDup p -> is_perm n p.
Proof.
  intros Hl Hr Hnd. unfold is_perm. apply submseteq_Permutation_length_le.
  - rewrite seqZ_length. unfold zlen in Hl. lia.
  - apply NoDup_submseteq; [done|]. intros x [i Hi]%elem_of_zlook. apply elem_of_seqZ. apply Hr in Hi. lia.
Qed.

(** Last position exists for every member. *)
Lemma last_pos_exists {A} `{EqDecision A} (l : list A) x : x ∈ l -> exists i, last_pos l x i.
Proof.
  induction l as [|y l IH] using rev_ind; [intros H; inversion H|].
  intros H. destruct (decide (x = y)) as [->|Hne].
  - exists (zlen l). split; [apply zlook_snoc|]. intros k Hk. rewrite zlook_ge; [done|]. rewrite zlen_app. change (zlen [y]) with 1. lia.
  - apply elem_of_app in H as [H|H]; [|apply elem_of_list_singleton in H; done].
    destruct (IH H) as (i & Hi & Hl). exists i. split.
    + rewrite zlook_app_l; [done|]. apply zlook_Some_lt in Hi. lia.
    + intros k Hk. rewrite zlook_app. destruct (k <? zlen l) eqn:E; [auto|].
      rewrite zlook_cons. destruct (k - zlen l =? 0); [congruence|]. rewrite zlook_nil. done.
Qed.
Lemma last_pos_unique {A} (l : list A) x i j : last_pos l x i -> last_pos l x j -> i = j.
Proof.
  intros [Hi Hi'] [Hj Hj']. destruct (Z.lt_trichotomy i j) as [H|[H|H]]; [|done|].
  - exfalso. eapply Hi'; eauto.
  - exfalso. eapply Hj'; eauto.
Qed.

(** * Scatter and gather loops *)

(** Content of the destination after the first [i] steps of a scatter loop. *)
Definition scattered {A} (nc m : Z) (src : list A) (p : list Z) (i : Z) (dst : list (option A)) : Prop :=
  zlen dst = m * nc /\ forall t j, 0 <= t < m -> 0 <= j < nc ->
    (forall k, last_pos (take (Z.to_nat i) p) t k -> dst @ (t * nc + j) = Some <$> (src @ (k * nc + j))) /\
    (t ∉ take (Z.to_nat i) p -> dst @ (t * nc + j) = Some None).

Lemma take_succ {A} (p : list A) i v : p @ i = Some v -> take (Z.to_nat (i + 1)) p = take (Z.to_nat i) p ++ [v].
Proof.
  intros H. pose proof (zlook_Some_lt _ _ _ H). rewrite zlook_to_nat in H by lia.
  replace (Z.to_nat (i + 1)) with (Datatypes.S (Z.to_nat i)) by lia. apply take_S_r. done.
Qed.

Lemma last_pos_snoc_same {A} (l : list A) x : last_pos (l ++ [x]) x (zlen l).
Proof.
  split; [apply zlook_snoc|]. intros k Hk. rewrite zlook_ge; [done|]. rewrite zlen_app. change (zlen [x]) with 1. lia.
Qed.
Lemma last_pos_snoc_ne {A} (l : list A) x y k : x <> y -> last_pos (l ++ [y]) x k -> last_pos l x k.
Proof.
  intros Hne [H H']. rewrite zlook_app in H. destruct (k <? zlen l) eqn:E.
  - split; [done|]. intros k' Hk' Hx. apply (H' k' Hk'). rewrite zlook_app_l; [done|]. apply zlook_Some_lt in Hx. lia.
  - rewrite zlook_cons in H. destruct (k - zlen l =? 0); [congruence|]. rewrite zlook_nil in H. done.
Qed.

Lemma wp_scatter {A} nc n m (src : list A) (p : list Z) (good : Z -> Prop) (body : Z -> list (option A) -> res (list (option A)))
  (Q : list (option A) -> Prop) (T : Prop) :
  0 <= nc -> 0 <= n -> 0 <= m -> zlen src = n * nc -> zlen p = n ->
  (forall i v dst, 0 <= i < n -> p @ i = Some v -> zlen dst = m * nc ->
     (0 <= v < m /\ good v /\ exists a b c, body i dst = copyc src a b dst c /\ a = nc * i /\ b = nc * i + nc /\ c = nc * v) \/
     (~ 0 <= v < m /\ good v /\ body i dst = Ok dst) \/
     (~ good v /\ body i dst = Throw)) ->
  (forall dst, scattered nc m src p n dst -> (forall v, v ∈ p -> good v) -> Q dst) ->
  ((exists v, v ∈ p /\ ~ good v) -> T) ->
  wp (forZ 0 n body (malloc A (nc * m))) Q T.
Proof.
  intros Hnc Hn Hm Hsrc Hp Hbody HQ HT.
  apply (wp_forZ (fun i dst => scattered nc m src p i dst /\ forall k v, 0 <= k < i -> p @ k = Some v -> good v)).
  - lia.
  - split; [split|].
    + rewrite zlen_malloc. nia.
    + intros t j Ht Hj. change (take (Z.to_nat 0) p) with (@nil Z). split.
      * intros k [H _]. rewrite zlook_nil in H. done.
      * intros _. apply zlook_malloc_flat; done.
    + lia.
  - intros i dst Hi [[Hl Hs] Hg]. destruct (zlook_lt p i ltac:(lia)) as [v Hv].
    assert (Htk : zlen (take (Z.to_nat i) p) = i) by (rewrite zlen_take; lia).
    destruct (Hbody i v dst Hi Hv Hl) as [(Hv' & Hgv & a & b & c & -> & Ha & Hb & Hc)|[(Hv' & Hgv & ->)|(Hgv & ->)]].
    + eapply (wp_copy_tuple nc src i a b dst v c); try done; try nia.
      intros dst' Hl' Hd'. split; [split; [lia|]|].
      * intros t j Ht Hj. rewrite (take_succ _ _ _ Hv). rewrite Hd' by done. destruct (Z.eqb_spec t v) as [->|Hne].
        -- split.
           ++ intros k Hk. pose proof (last_pos_unique _ _ _ _ Hk (last_pos_snoc_same _ _)) as ->. rewrite Htk. done.
           ++ intros Hnot. exfalso. apply Hnot. apply elem_of_app. right. by apply elem_of_list_singleton.
        -- destruct (Hs t j Ht Hj) as [Hs1 Hs2]. split.
           ++ intros k Hk. apply Hs1. eapply last_pos_snoc_ne; [|done]. done.
           ++ intros Hnot. apply Hs2. intros Hin. apply Hnot. apply elem_of_app. by left.
      * intros k w Hk Hw. destruct (decide (k = i)) as [->|]; [|apply (Hg k w); [lia|done]]. congruence.
    + simpl. split; [split; [done|]|].
      * intros t j Ht Hj. rewrite (take_succ _ _ _ Hv). destruct (Hs t j Ht Hj) as [Hs1 Hs2].
        assert (t <> v) by (intros ->; done). split.
        -- intros k Hk. apply Hs1. eapply last_pos_snoc_ne; [|done]. done.
        -- intros Hnot. apply Hs2. intros Hin. apply Hnot. apply elem_of_app. by left.
      * intros k w Hk Hw. destruct (decide (k = i)) as [->|]; [|apply (Hg k w); [lia|done]]. congruence.
    + simpl. apply HT. exists v. split; [|done]. eapply zlook_elem; done.
  - intros dst [Hs Hg]. apply HQ; [done|]. intros v [k Hk]%elem_of_zlook. apply (Hg k); [|done]. apply zlook_Some_lt in Hk. lia.
Qed.

Lemma wp_gather {A} nc n m (src : list A) (ids : list Z) (good : Z -> Prop) (body : Z -> list (option A) -> res (list (option A)))
  (Q : list (option A) -> Prop) (T : Prop) :
  0 <= nc -> 0 <= n -> zlen src = n * nc -> zlen ids = m ->
  (forall i v dst, 0 <= i < m -> ids @ i = Some v -> zlen dst = m * nc ->
     (0 <= v < n /\ good v /\ exists a b c, body i dst = copyc src a b dst c /\ a = nc * v /\ b = nc * v + nc /\ c = nc * i) \/
     (~ good v /\ body i dst = Throw)) ->
  (forall l, zlen l = m * nc -> (forall v, v ∈ ids -> good v) ->
     (forall i v j, ids @ i = Some v -> 0 <= j < nc -> l @ (i * nc + j) = src @ (v * nc + j)) -> Q (Some <$> l)) ->
  ((exists v, v ∈ ids /\ ~ good v) -> T) ->
  wp (forZ 0 m body (malloc A (nc * m))) Q T.
Proof.
  intros Hnc Hn Hsrc Hp Hbody HQ HT. pose proof (zlen_nonneg ids).
  apply (wp_forZ (fun i dst => zlen dst = m * nc /\ forall k v, 0 <= k < i -> ids @ k = Some v -> 0 <= v < n /\ good v /\
     forall j, 0 <= j < nc -> dst @ (k * nc + j) = Some <$> (src @ (v * nc + j)))).
  - lia.
  - split; [rewrite zlen_malloc; nia|]. lia.
  - intros i dst Hi [Hl Hs]. destruct (zlook_lt ids i ltac:(lia)) as [v Hv].
    destruct (Hbody i v dst Hi Hv Hl) as [(Hv' & Hgv & a & b & c & -> & Ha & Hb & Hc)|(Hgv & ->)].
    + eapply (wp_copy_tuple nc src v a b dst i c); try done; try nia.
      intros dst' Hl' Hd'. split; [lia|]. intros k w Hk Hw. destruct (decide (k = i)) as [->|Hne].
      * assert (w = v) as -> by congruence. split; [done|]. split; [done|]. intros j Hj. rewrite Hd' by done. rewrite Z.eqb_refl. done.
      * destruct (Hs k w ltac:(lia) Hw) as (Hw' & Hgw & Hj'). split; [done|]. split; [done|]. intros j Hj.
        rewrite Hd' by done. replace (k =? i) with false by lia. apply Hj'; done.
    + simpl. apply HT. exists v. split; [|done]. eapply zlook_elem; done.
  - intros dst [Hl Hs].
    assert (Hin : forall k v, ids @ k = Some v -> 0 <= v < n /\ good v /\
       forall j, 0 <= j < nc -> dst @ (k * nc + j) = Some <$> (src @ (v * nc + j))).
    { intros k v Hk. apply Hs; [|done]. apply zlook_Some_lt in Hk. lia. }
    destruct (flat_all_some nc m dst) as [l ->]; [done|done| |].
    { intros k j Hk Hj. destruct (zlook_lt ids k ltac:(lia)) as [v Hv]. destruct (Hin k v Hv) as (Hv' & _ & Hv'').
      rewrite Hv'' by done. destruct (flat_lookup nc n src v j) as [x ->]; [done..|]. eauto. }
    apply HQ.
    + rewrite zlen_fmap in Hl. done.
    + intros v [k Hk]%elem_of_zlook. apply (Hin k v); done.
    + intros i v j Hi Hj. destruct (Hin i v Hi) as (Hv' & _ & Hv''). specialize (Hv'' j Hj).
      rewrite zlook_fmap in Hv''. destruct (l @ _), (src @ _); simpl in Hv''; congruence.
Qed.

(** * ij and tuples *)

Lemma ij_eq {A} (d d' : da A) i i' :
  da_nc d = da_nc d' -> 0 <= i -> 0 <= i' ->
  (forall j, 0 <= j < da_nc d -> da_vals d @ (i * da_nc d + j) = da_vals d' @ (i' * da_nc d' + j)) ->
  forall j, ij d i j = ij d' i' j.
Proof.
  intros Hnc Hi Hi' H j. unfold ij. rewrite <- Hnc in *.
  replace (0 <=? i) with true by lia. replace (0 <=? i') with true by lia. simpl.
  destruct ((0 <=? j) && (j <? da_nc d)) eqn:E; [|done]. apply H. lia.
Qed.

Lemma tuple_look {A} (d : da A) i j : 0 <= i -> tuple d i @ j = ij d i j.
Proof.
  intros Hi. unfold tuple, ij. destruct (decide (0 <= j < da_nc d)) as [Hj|Hj].
  - replace ((0 <=? i) && (0 <=? j) && (j <? da_nc d)) with true by lia.
    rewrite zlook_take by lia. rewrite zlook_drop by lia. f_equal. nia.
  - replace ((0 <=? i) && (0 <=? j) && (j <? da_nc d)) with false by lia.
    apply zlook_None. rewrite zlen_take. lia.
Qed.

Lemma tuple_ext {A} (d d' : da A) i i' : 0 <= i -> 0 <= i' -> (forall j, ij d i j = ij d' i' j) -> tuple d i = tuple d' i'.
Proof. intros Hi Hi' H. apply zlook_ext. intros j. rewrite !tuple_look by done. apply H. Qed.

Lemma ij_flat {A} (d : da A) i j : 0 <= i -> 0 <= j < da_nc d -> ij d i j = da_vals d @ (i * da_nc d + j).
Proof. intros Hi Hj. unfold ij. replace ((0 <=? i) && (0 <=? j) && (j <? da_nc d)) with true by lia. done. Qed.

(** * renumber *)

Section Renum.
Context {A : Type}.
Implicit Types d : da A.

Lemma vals_ext d l : da_wf d -> zlen l = da_nt d * da_nc d ->
  (forall i j, 0 <= i < da_nt d -> 0 <= j < da_nc d -> l @ (i * da_nc d + j) = da_vals d @ (i * da_nc d + j)) -> l = da_vals d.
Proof.
  intros Hwf Hl H. destruct (da_wf_len d Hwf) as (Hv & Hn & Hnc).
  eapply flat_ext; eauto.
Qed.

(** Common core of the two scatter functions on a permutation. *)
Lemma scatter_perm d p dst : da_wf d -> is_perm (da_nt d) p ->
  scattered (da_nc d) (da_nt d) (da_vals d) p (da_nt d) dst ->
  exists l, dst = Some <$> l /\ zlen l = zlen (da_vals d) /\
    forall i t, p @ i = Some t -> forall j, ij (DA true (da_nc d) l) t j = ij d i j.
Proof.
  intros Hwf Hp [Hl Hs]. destruct (da_wf_len d Hwf) as (Hv & Hn & Hnc).
  pose proof (perm_len _ _ Hn Hp) as Hpl.
  assert (Htk : take (Z.to_nat (da_nt d)) p = p) by (apply take_ge; unfold zlen in Hpl; lia). rewrite Htk in Hs.
  assert (Hs' : forall i t j, p @ i = Some t -> 0 <= j < da_nc d -> dst @ (t * da_nc d + j) = Some <$> (da_vals d @ (i * da_nc d + j))).
  { intros i t j Hi Hj. pose proof (perm_range _ _ _ _ Hp Hi). destruct (Hs t j) as [Hs1 _]; [done..|].
    apply Hs1. eapply perm_last; done. }
  destruct (flat_all_some (da_nc d) (da_nt d) dst) as [l ->]; [done|done| |].
  { intros t j Ht Hj. destruct (perm_surj _ _ t Hp Ht) as [i Hi]. rewrite (Hs' i t j Hi Hj).
    destruct (flat_lookup (da_nc d) (da_nt d) (da_vals d) i j) as [x ->]; [done| |done|by eexists].
    apply zlook_Some_lt in Hi. lia. }
  exists l. rewrite zlen_fmap in Hl. split; [done|]. split; [congruence|].
  intros i t Hi. pose proof (zlook_Some_lt _ _ _ Hi). pose proof (perm_range _ _ _ _ Hp Hi).
  apply ij_eq; try done; try lia. cbn [da_nc da_vals]. intros j Hj. specialize (Hs' i t j Hi Hj).
  rewrite zlook_fmap in Hs'. destruct (l @ _), (da_vals d @ _); simpl in Hs'; congruence.
Qed.

Lemma renumber_ok d p : da_alloc d = true -> da_wf d -> is_perm (da_nt d) p ->
  exists l, renumber d p = Ok (DA true (da_nc d) (Some <$> l)) /\ zlen l = zlen (da_vals d) /\
    forall i t, p @ i = Some t -> forall j, ij (DA true (da_nc d) l) t j = ij d i j.
Proof.
  intros Ha Hwf Hp. destruct (da_wf_len d Hwf) as (Hv & Hn & Hnc). pose proof (perm_len _ _ Hn Hp) as Hpl.
  assert (Hw : wp (renumber d p) (fun r => exists l, r = DA true (da_nc d) (Some <$> l) /\ zlen l = zlen (da_vals d) /\
     forall i t, p @ i = Some t -> forall j, ij (DA true (da_nc d) l) t j = ij d i j) False).
  { unfold renumber, checkAllocated. rewrite Ha. simpl. wstep. apply wp_alloc; [done..|]. wstep.
    eapply (wp_scatter (da_nc d) (da_nt d) (da_nt d) (da_vals d) p (fun v => 0 <= v < da_nt d)); try done.
    - intros i v dst Hi Hv' Hdst. left. pose proof (perm_range _ _ _ _ Hp Hv'). split; [done|]. split; [done|].
      rewrite (rd_ok _ _ _ Hv'). simpl. eexists _, _, _. split; [done|]. lia.
    - intros dst Hs _. destruct (scatter_perm d p dst Hwf Hp Hs) as (l & -> & Hl & Hij). simpl. eauto.
    - intros (v & [i Hi]%elem_of_zlook & Hv'). apply Hv'. eapply perm_range; done. }
  apply wp_ok in Hw as (r & -> & l & -> & Hl & Hij). eauto.
Qed.

Lemma renumberR_ok d p : da_alloc d = true -> da_wf d -> zlen p = da_nt d -> (forall v, v ∈ p -> 0 <= v < da_nt d) ->
  exists l, renumberR d p = Ok (DA true (da_nc d) (Some <$> l)) /\ zlen l = zlen (da_vals d) /\
    forall i t, p @ i = Some t -> forall j, ij (DA true (da_nc d) l) i j = ij d t j.
Proof.
  intros Ha Hwf Hpl Hp. destruct (da_wf_len d Hwf) as (Hv & Hn & Hnc).
  assert (Hw : wp (renumberR d p) (fun r => exists l, r = DA true (da_nc d) (Some <$> l) /\ zlen l = zlen (da_vals d) /\
     forall i t, p @ i = Some t -> forall j, ij (DA true (da_nc d) l) i j = ij d t j) False).
  { unfold renumberR, checkAllocated. rewrite Ha. simpl. wstep. apply wp_alloc; [done..|]. wstep.
    eapply (wp_gather (da_nc d) (da_nt d) (da_nt d) (da_vals d) p (fun v => 0 <= v < da_nt d)); try done.
    - intros i v dst Hi Hv' Hdst. left. pose proof (Hp v ltac:(eapply zlook_elem; done)). split; [done|]. split; [done|].
      rewrite (rd_ok _ _ _ Hv'). simpl. eexists _, _, _. split; [done|]. lia.
    - intros l Hl _ Hij. simpl. exists l. split; [done|]. split; [congruence|]. intros i t Hi.
      pose proof (zlook_Some_lt _ _ _ Hi). pose proof (Hp t ltac:(eapply zlook_elem; done)).
      apply ij_eq; try done; try lia. cbn [da_nc da_vals]. intros j Hj. apply Hij; done.
    - intros (v & Hin & Hv'). apply Hv'. auto. }
  apply wp_ok in Hw as (r & -> & l & -> & Hl & Hij). eauto.
Qed.

Lemma wf_same_len d (l : list A) : da_wf d -> zlen l = zlen (da_vals d) -> da_wf (DA true (da_nc d) l).
Proof. intros (Hnc & n & Hn & Hl) H. split; [done|]. exists n. split; [done|]. cbn [da_vals da_nc]. congruence. Qed.
Lemma nt_same_len d (l : list A) : zlen l = zlen (da_vals d) -> da_nt (DA true (da_nc d) l) = da_nt d.
Proof. intros H. unfold da_nt. cbn [da_nc da_vals]. rewrite H. done. Qed.

Lemma renumber_roundtrip d p : da_alloc d = true -> da_wf d -> is_perm (da_nt d) p ->
  exists l, renumber d p = Ok (DA true (da_nc d) (Some <$> l)) /\
            renumberR (DA true (da_nc d) l) p = Ok (DA true (da_nc d) (Some <$> da_vals d)).
Proof.
  intros Ha Hwf Hp. destruct (da_wf_len d Hwf) as (Hv & Hn & Hnc). pose proof (perm_len _ _ Hn Hp) as Hpl.
  destruct (renumber_ok d p Ha Hwf Hp) as (l & Hr & Hl & Hij). exists l. split; [done|].
  destruct (renumberR_ok (DA true (da_nc d) l) p) as (l' & Hr' & Hl' & Hij').
  - done.
  - apply wf_same_len; done.
  - rewrite nt_same_len; done.
  - intros v [i Hi]%elem_of_zlook. rewrite nt_same_len by done. eapply perm_range; done.
  - rewrite Hr'. cbn [da_nc]. cbn [da_vals da_nc] in Hl'. do 3 f_equal.
    apply vals_ext; [done|congruence|]. intros i j Hi Hj.
    destruct (zlook_lt p i ltac:(lia)) as [t Ht]. specialize (Hij' i t Ht j). rewrite (Hij i t Ht) in Hij'.
    cbn [da_nc] in Hij'. rewrite !ij_flat in Hij' by (cbn [da_nc]; lia). done.
Qed.

Lemma renumberR_roundtrip d p : da_alloc d = true -> da_wf d -> is_perm (da_nt d) p ->
  exists l, renumberR d p = Ok (DA true (da_nc d) (Some <$> l)) /\
            renumber (DA true (da_nc d) l) p = Ok (DA true (da_nc d) (Some <$> da_vals d)).
Proof.
  intros Ha Hwf Hp. destruct (da_wf_len d Hwf) as (Hv & Hn & Hnc). pose proof (perm_len _ _ Hn Hp) as Hpl.
  destruct (renumberR_ok d p Ha Hwf Hpl) as (l & Hr & Hl & Hij).
  { intros v [i Hi]%elem_of_zlook. eapply perm_range; done. }
  exists l. split; [done|].
  destruct (renumber_ok (DA true (da_nc d) l) p) as (l' & Hr' & Hl' & Hij').
  - done.
  - apply wf_same_len; done.
  - rewrite nt_same_len; done.
  - rewrite Hr'. cbn [da_nc]. cbn [da_vals da_nc] in Hl'. do 3 f_equal.
    apply vals_ext; [done|congruence|]. intros t j Ht Hj.
    destruct (perm_surj _ _ t Hp Ht) as [i Hi]. pose proof (zlook_Some_lt _ _ _ Hi).
    specialize (Hij' i t Hi j). rewrite (Hij i t Hi) in Hij'.
    cbn [da_nc] in Hij'. rewrite !ij_flat in Hij' by (cbn [da_nc]; lia). done.
Qed.

Lemma tuples_perm d l p : da_wf d -> is_perm (da_nt d) p -> zlen l = zlen (da_vals d) ->
  (forall i t, p @ i = Some t -> forall j, ij (DA true (da_nc d) l) t j = ij d i j) ->
  tuples (DA true (da_nc d) l) ≡ₚ tuples d.
Proof.
  intros Hwf Hp Hl Hij. destruct (da_wf_len d Hwf) as (Hv & Hn & Hnc). pose proof (perm_len _ _ Hn Hp) as Hpl.
  unfold tuples. rewrite nt_same_len by done. rewrite <- Hp at 1.
  match goal with |- ?a ≡ₚ ?b => assert (a = b) as ->; [|done] end. apply zlook_ext_lt.
  - rewrite !zlen_fmap, zlen_seqZ. lia.
  - rewrite zlen_fmap. intros i Hi. rewrite !zlook_fmap, zlook_seqZ by lia. rewrite Z.add_0_l.
    destruct (zlook_lt p i Hi) as [t Ht]. rewrite Ht. simpl. f_equal.
    pose proof (perm_range _ _ _ _ Hp Ht). apply tuple_ext; [lia..|]. apply Hij; done.
Qed.

(** ** In place *)

Lemma inplace_wp d (p : list Z) (Q : list (option A) -> Prop) (r : res (list (option A))) (T : Prop) : wp r Q T ->
  (exists cells, inplace d r = (Ok tt, DA (da_alloc d) (da_nc d) cells) /\ Q cells /\ r = Ok cells) \/
  (inplace d r = (Throw, DA (da_alloc d) (da_nc d) (Some <$> da_vals d)) /\ T /\ r = Throw).
Proof. destruct r; simpl; try done; eauto. Qed.


Lemma renumberInPlace_wp d p : da_alloc d = true -> da_wf d -> zlen p = da_nt d ->
  (exists cells, renumberInPlace d p = (Ok tt, DA (da_alloc d) (da_nc d) cells) /\
     scattered (da_nc d) (da_nt d) (da_vals d) p (da_nt d) cells /\ ~ out_of_range (da_nt d) p) \/
  (renumberInPlace d p = (Throw, DA (da_alloc d) (da_nc d) (Some <$> da_vals d)) /\ out_of_range (da_nt d) p).
Proof.
  intros Ha Hwf Hpl. destruct (da_wf_len d Hwf) as (Hv & Hn & Hnc).
  unfold renumberInPlace.
  match goal with |- context [inplace d ?r] => destruct (inplace_wp d p (fun cells => scattered (da_nc d) (da_nt d) (da_vals d) p (da_nt d) cells /\ ~ out_of_range (da_nt d) p) r (out_of_range (da_nt d) p)) as [(cells & -> & HQ & _)|(-> & HT & _)];
    [|left; exists cells; split; [done|exact HQ]|right; split; [done|exact HT]] end.
  unfold checkAllocated. rewrite Ha. simpl. wstep. apply wp_alloc; [done..|].
  eapply (wp_scatter (da_nc d) (da_nt d) (da_nt d) (da_vals d) p (fun v => 0 <= v < da_nt d)); try done.
  - intros i v dst Hi Hv' Hdst. rewrite (rd_ok _ _ _ Hv'). simpl.
    destruct ((0 <=? v) && (v <? da_nt d)) eqn:E.
    + left. split; [lia|]. split; [lia|]. eexists _, _, _. split; [done|]. lia.
    + right. right. split; [lia|done].
  - intros dst Hs Hg. split; [done|]. intros (v & Hin & Hv'). apply Hv', Hg, Hin.
Qed.

Lemma renumberInPlaceR_wp d p : da_alloc d = true -> da_wf d -> zlen p = da_nt d ->
  (exists l, renumberInPlaceR d p = (Ok tt, DA (da_alloc d) (da_nc d) (Some <$> l)) /\ zlen l = zlen (da_vals d) /\
     (forall i t, p @ i = Some t -> forall j, ij (DA true (da_nc d) l) i j = ij d t j) /\ ~ out_of_range (da_nt d) p) \/
  (renumberInPlaceR d p = (Throw, DA (da_alloc d) (da_nc d) (Some <$> da_vals d)) /\ out_of_range (da_nt d) p).
Proof.
  intros Ha Hwf Hpl. destruct (da_wf_len d Hwf) as (Hv & Hn & Hnc).
  unfold renumberInPlaceR.
  match goal with |- context [inplace d ?r] => destruct (inplace_wp d p (fun cells => exists l, cells = Some <$> l /\ zlen l = zlen (da_vals d) /\
     (forall i t, p @ i = Some t -> forall j, ij (DA true (da_nc d) l) i j = ij d t j) /\ ~ out_of_range (da_nt d) p) r (out_of_range (da_nt d) p))
    as [(cells & -> & (l & -> & Hl & HQ) & _)|(-> & HT & _)];
    [|left; exists l; split; [done|exact (conj Hl HQ)]|right; split; [done|exact HT]] end.
  unfold checkAllocated. rewrite Ha. simpl. wstep. apply wp_alloc; [done..|].
  eapply (wp_gather (da_nc d) (da_nt d) (da_nt d) (da_vals d) p (fun v => 0 <= v < da_nt d)); try done.
  - intros i v dst Hi Hv' Hdst. rewrite (rd_ok _ _ _ Hv'). simpl.
    destruct ((0 <=? v) && (v <? da_nt d)) eqn:E.
    + left. split; [lia|]. split; [lia|]. eexists _, _, _. split; [done|]. lia.
    + right. split; [lia|done].
  - intros l Hl Hg Hij. exists l. split; [done|]. split; [congruence|]. split.
    + intros i t Hi. pose proof (zlook_Some_lt _ _ _ Hi). pose proof (Hg t ltac:(eapply zlook_elem; done)).
      apply ij_eq; try done; try lia. cbn [da_nc da_vals]. intros j Hj. apply Hij; done.
    + intros (v & Hin & Hv'). apply Hv', Hg, Hin.
Qed.

Lemma perm_not_out n p : is_perm n p -> ~ out_of_range n p.
Proof. intros Hp (v & [i Hi]%elem_of_zlook & Hv). apply Hv. eapply perm_range; done. Qed.

Lemma ij_determines d (l l' : list A) (p : list Z) : da_wf d -> zlen l = zlen (da_vals d) -> zlen l' = zlen (da_vals d) ->
  (forall t, 0 <= t < da_nt d -> forall j, ij (DA true (da_nc d) l) t j = ij (DA true (da_nc d) l') t j) -> l = l'.
Proof.
  intros Hwf Hl Hl' H. destruct (da_wf_len d Hwf) as (Hv & Hn & Hnc).
  apply (flat_ext (da_nc d) (da_nt d)); try congruence; try done. intros t j Ht Hj. specialize (H t Ht j).
  rewrite !ij_flat in H by (cbn [da_nc]; lia). done.
Qed.

Lemma renumberInPlace_same d p : da_alloc d = true -> da_wf d -> is_perm (da_nt d) p ->
  exists r, renumber d p = Ok r /\ renumberInPlace d p = (Ok tt, r).
Proof.
  intros Ha Hwf Hp. destruct (da_wf_len d Hwf) as (Hv & Hn & Hnc). pose proof (perm_len _ _ Hn Hp) as Hpl.
  destruct (renumber_ok d p Ha Hwf Hp) as (l & Hr & Hl & Hij).
  destruct (renumberInPlace_wp d p Ha Hwf Hpl) as [(cells & Hr' & Hs & _)|(_ & Ho)]; [|by apply perm_not_out in Ho].
  destruct (scatter_perm d p cells Hwf Hp Hs) as (l' & -> & Hl' & Hij').
  eexists. split; [exact Hr|]. rewrite Hr', Ha.
  rewrite (ij_determines d l' l p); try done.
  intros t Ht j. destruct (perm_surj _ _ t Hp Ht) as [i Hi]. rewrite (Hij i t Hi), (Hij' i t Hi). done.
Qed.

Lemma renumberInPlaceR_same d p : da_alloc d = true -> da_wf d -> is_perm (da_nt d) p ->
  exists r, renumberR d p = Ok r /\ renumberInPlaceR d p = (Ok tt, r).
Proof.
  intros Ha Hwf Hp. destruct (da_wf_len d Hwf) as (Hv & Hn & Hnc). pose proof (perm_len _ _ Hn Hp) as Hpl.
  destruct (renumberR_ok d p Ha Hwf Hpl) as (l & Hr & Hl & Hij).
  { intros v [i Hi]%elem_of_zlook. eapply perm_range; done. }
  destruct (renumberInPlaceR_wp d p Ha Hwf Hpl) as [(l' & Hr' & Hl' & Hij' & _)|(_ & Ho)]; [|by apply perm_not_out in Ho].
  eexists. split; [exact Hr|]. rewrite Hr', Ha.
  rewrite (ij_determines d l' l p); try done.
  intros i Hi j. destruct (zlook_lt p i ltac:(lia)) as [t Ht]. rewrite (Hij i t Ht), (Hij' i t Ht). done.
Qed.

(** ** renumberAndReduce *)

Lemma renumberAndReduce_ok d p newNb : da_alloc d = true -> da_wf d -> zlen p = da_nt d -> 0 <= newNb ->
  (forall v, v ∈ p -> v < newNb) ->
  exists cells, renumberAndReduce d p newNb = Ok (DA true (da_nc d) cells) /\ zlen cells = newNb * da_nc d /\
    (forall t i, 0 <= t -> last_pos p t i -> forall j, ij (DA true (da_nc d) cells) t j = Some <$> ij d i j) /\
    (forall t j, 0 <= t < newNb -> 0 <= j < da_nc d -> t ∉ p -> ij (DA true (da_nc d) cells) t j = Some None).
Proof.
  intros Ha Hwf Hpl Hnew Hp. destruct (da_wf_len d Hwf) as (Hv & Hn & Hnc).
  assert (Hw : wp (renumberAndReduce d p newNb)
     (fun r => exists cells, r = DA true (da_nc d) cells /\ scattered (da_nc d) newNb (da_vals d) p (da_nt d) cells) False).
  { unfold renumberAndReduce, checkAllocated. rewrite Ha. simpl. wstep. apply wp_alloc; [done..|]. wstep.
    eapply (wp_scatter (da_nc d) (da_nt d) newNb (da_vals d) p (fun v => True)); try done.
    - intros i v dst Hi Hv' Hdst. rewrite (rd_ok _ _ _ Hv'). simpl.
      pose proof (Hp v ltac:(eapply zlook_elem; done)).
      destruct (0 <=? v) eqn:E.
      + left. split; [lia|]. split; [done|]. eexists _, _, _. split; [done|]. lia.
      + right. left. split; [lia|done].
    - intros dst Hs _. simpl. eauto.
    - intros (v & _ & Hf). done. }
  apply wp_ok in Hw as (r & -> & cells & -> & Hl & Hs). exists cells. split; [done|]. split; [done|].
  assert (Htk : take (Z.to_nat (da_nt d)) p = p) by (apply take_ge; unfold zlen in Hpl; lia). rewrite Htk in Hs.
  split.
  - intros t i Ht Hi j. pose proof (proj1 Hi) as Hi'. pose proof (zlook_Some_lt _ _ _ Hi').
    pose proof (Hp t ltac:(eapply zlook_elem; done)). unfold ij. cbn [da_nc da_vals].
    replace (0 <=? t) with true by lia. replace (0 <=? i) with true by lia. simpl.
    destruct ((0 <=? j) && (j <? da_nc d)) eqn:E; [|done].
    destruct (Hs t j) as [Hs1 _]; [lia..|]. apply Hs1; done.
  - intros t j Ht Hj Hnot. rewrite ij_flat by (cbn [da_nc]; lia). cbn [da_nc da_vals]. apply Hs; done.
Qed.

Lemma renumberAndReduce_full d p newNb : da_alloc d = true -> da_wf d -> zlen p = da_nt d -> 0 <= newNb ->
  is_perm newNb (filter (fun v => 0 <= v) p) ->
  exists l, renumberAndReduce d p newNb = Ok (DA true (da_nc d) (Some <$> l)) /\ zlen l = newNb * da_nc d /\
    (forall t i, p @ i = Some t -> 0 <= t -> forall j, ij (DA true (da_nc d) l) t j = ij d i j).
Proof.
  intros Ha Hwf Hpl Hnew Hp. destruct (da_wf_len d Hwf) as (Hv & Hn & Hnc).
  assert (Hin : forall v, v ∈ p -> 0 <= v -> 0 <= v < newNb).
  { intros v Hv' Hv0. apply (perm_elem _ _ _ Hp). apply elem_of_list_filter. done. }
  destruct (renumberAndReduce_ok d p newNb Ha Hwf Hpl Hnew) as (cells & Hr & Hl & H1 & _).
  { intros v Hv'. destruct (decide (0 <= v)) as [H0|H0]; [apply Hin in H0; [lia|done]|lia]. }
  assert (Hlast : forall t, 0 <= t < newNb -> exists i, last_pos p t i).
  { intros t Ht. apply last_pos_exists. apply (perm_elem _ _ t Hp) in Ht. apply elem_of_list_filter in Ht. tauto. }
  assert (Huniq : forall t i i', 0 <= t -> p @ i = Some t -> p @ i' = Some t -> i = i').
  { pose proof (perm_nodup _ _ Hp) as Hnd. clear -Hnd. induction p as [|x p IH]; intros t i i' Ht Hi Hi'.
    - rewrite zlook_nil in Hi. done.
    - rewrite zlook_cons in Hi, Hi'. rewrite filter_cons in Hnd.
      assert (Hx : forall k, x = t -> p @ k = Some t -> False).
      { intros k -> Hk. rewrite decide_True in Hnd by done. apply NoDup_cons in Hnd as [Hnd _]. apply Hnd.
        apply elem_of_list_filter. split; [done|]. eapply zlook_elem; done. }
      destruct (Z.eqb_spec i 0) as [->|Hi0], (Z.eqb_spec i' 0) as [->|Hi0']; [done| | |].
      + exfalso. eapply Hx; [|done]. congruence.
      + exfalso. eapply Hx; [|exact Hi]. congruence.
      + assert (i - 1 = i' - 1); [|lia]. eapply IH; try done.
        destruct (decide (0 <= x)); [apply NoDup_cons in Hnd; tauto|done]. }
  destruct (flat_all_some (da_nc d) newNb cells) as [l ->]; [done|done| |].
  { intros t j Ht Hj. destruct (Hlast t Ht) as [i Hi]. specialize (H1 t i ltac:(lia) Hi j).
    pose proof (zlook_Some_lt _ _ _ (proj1 Hi)).
    rewrite !ij_flat in H1 by (cbn [da_nc]; lia). cbn [da_nc da_vals] in H1. rewrite H1.
    destruct (flat_lookup (da_nc d) (da_nt d) (da_vals d) i j) as [x ->]; [done|lia|done|by eexists]. }
  exists l. split; [done|]. rewrite zlen_fmap in Hl. split; [done|]. intros t i Hi Ht j.
  destruct (Hlast t) as [i' Hi']; [apply Hin; [eapply zlook_elem; done|done]|].
  rewrite (Huniq t i i' Ht Hi (proj1 Hi')). specialize (H1 t i' Ht Hi' j). unfold ij in *. cbn [da_nc da_vals] in *.
  rewrite zlook_fmap in H1. destruct ((0 <=? t) && _ && _), ((0 <=? i') && _ && _); try done.
  - destruct (l @ _), (da_vals d @ _); simpl in H1; congruence.
  - destruct (l @ _); simpl in H1; congruence.
  - destruct (da_vals d @ _); simpl in H1; congruence.
Qed.

(** * Selection *)

Lemma select_ok d ids : da_alloc d = true -> da_wf d -> (forall v, v ∈ ids -> 0 <= v < da_nt d) ->
  exists l, mySelectByTupleId d ids = Ok (DA true (da_nc d) (Some <$> l)) /\ zlen l = zlen ids * da_nc d /\
    forall i t, ids @ i = Some t -> forall j, ij (DA true (da_nc d) l) i j = ij d t j.
Proof.
  intros Ha Hwf Hp. destruct (da_wf_len d Hwf) as (Hv & Hn & Hnc).
  assert (Hw : wp (mySelectByTupleId d ids) (fun r => exists l, r = DA true (da_nc d) (Some <$> l) /\ zlen l = zlen ids * da_nc d /\
     forall i t, ids @ i = Some t -> forall j, ij (DA true (da_nc d) l) i j = ij d t j) False).
  { unfold mySelectByTupleId, checkAllocated. rewrite Ha. simpl. wstep. apply wp_alloc; [apply zlen_nonneg|done|]. wstep.
    eapply (wp_gather (da_nc d) (da_nt d) (zlen ids) (da_vals d) ids (fun v => 0 <= v < da_nt d)); try done.
    - intros i v dst Hi Hv' Hdst. left. pose proof (Hp v ltac:(eapply zlook_elem; done)). split; [done|]. split; [done|].
      rewrite (rd_ok _ _ _ Hv'). simpl. eexists _, _, _. split; [done|]. lia.
    - intros l Hl _ Hij. simpl. exists l. split; [done|]. split; [congruence|]. intros i t Hi.
      pose proof (zlook_Some_lt _ _ _ Hi). pose proof (Hp t ltac:(eapply zlook_elem; done)).
      apply ij_eq; try done; try lia. cbn [da_nc da_vals]. intros j Hj. apply Hij; done.
    - intros (v & Hin & Hv'). apply Hv'. auto. }
  apply wp_ok in Hw as (r & -> & l & -> & Hl & Hij). eauto.
Qed.

Lemma selectSafe_wp d ids : da_alloc d = true -> da_wf d ->
  wp (mySelectByTupleIdSafe d ids)
    (fun r => ~ out_of_range (da_nt d) ids /\ exists l, r = DA true (da_nc d) (Some <$> l) /\ zlen l = zlen ids * da_nc d /\
      forall i t, ids @ i = Some t -> forall j, ij (DA true (da_nc d) l) i j = ij d t j)
    (out_of_range (da_nt d) ids).
Proof.
  intros Ha Hwf. destruct (da_wf_len d Hwf) as (Hv & Hn & Hnc).
  unfold mySelectByTupleIdSafe, checkAllocated. rewrite Ha. simpl. wstep. apply wp_alloc; [apply zlen_nonneg|done|]. wstep.
  eapply (wp_gather (da_nc d) (da_nt d) (zlen ids) (da_vals d) ids (fun v => 0 <= v < da_nt d)); try done.
  - intros i v dst Hi Hv' Hdst. rewrite (rd_ok _ _ _ Hv'). simpl.
    destruct ((0 <=? v) && (v <? da_nt d)) eqn:E.
    + left. split; [lia|]. split; [lia|]. eexists _, _, _. split; [done|]. lia.
    + right. split; [lia|done].
  - intros l Hl Hg Hij. simpl. split; [intros (v & Hin & Hv'); apply Hv', Hg, Hin|].
    exists l. split; [done|]. split; [congruence|]. intros i t Hi.
    pose proof (zlook_Some_lt _ _ _ Hi). pose proof (Hg t ltac:(eapply zlook_elem; done)).
    apply ij_eq; try done; try lia. cbn [da_nc da_vals]. intros j Hj. apply Hij; done.
Qed.

Lemma selectSafe_throw d ids : da_alloc d = true -> da_wf d ->
  mySelectByTupleIdSafe d ids = Throw <-> out_of_range (da_nt d) ids.
Proof.
  intros Ha Hwf. pose proof (selectSafe_wp d ids Ha Hwf) as Hw. split.
  - intros H. rewrite H in Hw. exact Hw.
  - intros Ho. eapply wp_throw; [exact Hw|]. intros a [Hno _]. done.
Qed.

Lemma not_out n ids : ~ out_of_range n ids -> forall v, v ∈ ids -> 0 <= v < n.
Proof.
  intros Ho v Hin. destruct (decide (0 <= v < n)); [done|]. exfalso. apply Ho. exists v. done.
Qed.

Lemma ij_determines' nc n (l l' : list A) : 0 <= nc -> zlen l = n * nc -> zlen l' = n * nc ->
  (forall t, 0 <= t < n -> forall j, ij (DA true nc l) t j = ij (DA true nc l') t j) -> l = l'.
Proof.
  intros Hnc Hl Hl' H.
  apply (flat_ext nc n); try done. intros t j Ht Hj. specialize (H t Ht j).
  rewrite !ij_flat in H by (cbn [da_nc]; lia). done.
Qed.

Lemma selectSafe_same d ids : da_alloc d = true -> da_wf d -> ~ out_of_range (da_nt d) ids ->
  mySelectByTupleIdSafe d ids = mySelectByTupleId d ids.
Proof.
  intros Ha Hwf Ho. destruct (da_wf_len d Hwf) as (Hv & Hn & Hnc).
  destruct (select_ok d ids Ha Hwf (not_out _ _ Ho)) as (l & -> & Hl & Hij).
  pose proof (selectSafe_wp d ids Ha Hwf) as Hw. destruct (mySelectByTupleIdSafe d ids); simpl in Hw; try done.
  destruct Hw as (_ & l' & -> & Hl' & Hij'). do 3 f_equal. apply (ij_determines' (da_nc d) (zlen ids)); try done.
  intros i Hi j. destruct (zlook_lt ids i Hi) as [t Ht]. rewrite (Hij i t Ht), (Hij' i t Ht). done.
Qed.

(** ** Slices *)

Lemma selectSlice_ok d bg en st l : da_alloc d = true -> da_wf d -> valid_range bg en st -> is_range_list bg en st l ->
  (forall v, v ∈ l -> 0 <= v < da_nt d) ->
  mySelectByTupleIdSafeSlice d bg en st = mySelectByTupleIdSafe d l.
Proof.
  intros Ha Hwf Hval Hl Hin. destruct (da_wf_len d Hwf) as (Hv & Hn & Hnc).
  rewrite selectSafe_same; [|done|done|intros (v & Hv1 & Hv2); apply Hv2; auto].
  destruct (select_ok d l Ha Hwf Hin) as (k & -> & Hk & Hij).
  apply wp_ok_eq. unfold mySelectByTupleIdSafeSlice, checkAllocated. rewrite Ha. simpl.
  rewrite (count_is_len _ _ _ _ Hval Hl). simpl.
  pose proof (zlen_nonneg l).
  wstep. apply wp_alloc; [done..|]. wstep.
  apply (wp_forZ (fun i '(sp, dst) => sp = (bg + i * st) * da_nc d /\ zlen dst = zlen l * da_nc d /\ forall k v, 0 <= k < i -> l @ k = Some v ->
     forall j, 0 <= j < da_nc d -> dst @ (k * da_nc d + j) = Some <$> (da_vals d @ (v * da_nc d + j)))).
  - done.
  - split; [f_equal; lia|]. split; [rewrite zlen_malloc; nia|]. lia.
  - intros i [sp dst] Hi (-> & Hdl & Hs). destruct (zlook_lt l i Hi) as [v Hiv].
    pose proof (Hin v ltac:(eapply zlook_elem; done)) as Hvr.
    pose proof (proj1 (Hl i v) Hiv) as (_ & Hveq & _). rewrite <- Hveq.
    wstep. eapply (wp_copy_tuple (da_nc d) (da_vals d) v _ _ dst i); try done; try nia.
    intros dst' Hl' Hd'. simpl. split; [nia|]. split; [lia|]. intros k' w Hk' Hw j Hj. rewrite Hd' by done.
    destruct (Z.eqb_spec k' i) as [->|Hne].
    + assert (w = v) as -> by congruence. done.
    + apply Hs; try done. lia.
  - intros [sp dst] (_ & Hdl & Hs). simpl. f_equal.
    apply (flat_ext (da_nc d) (zlen l)); [done|done|rewrite zlen_fmap; done|].
    intros i j Hi Hj. destruct (zlook_lt l i Hi) as [v Hiv]. rewrite (Hs i v Hi Hiv) by done.
    rewrite zlook_fmap. specialize (Hij i v Hiv j). pose proof (Hin v ltac:(eapply zlook_elem; done)).
    rewrite !ij_flat in Hij by (cbn [da_nc]; lia). cbn [da_nc da_vals] in Hij. rewrite Hij. done.
Qed.

Lemma selectSlice_throw d bg en st : da_alloc d = true -> ~ valid_range bg en st -> mySelectByTupleIdSafeSlice d bg en st = Throw.
Proof.
  intros Ha Hv. unfold mySelectByTupleIdSafeSlice, checkAllocated. rewrite Ha. simpl.
  apply count_throw in Hv. rewrite Hv. done.
Qed.

Lemma subArray_ok d bg en : da_alloc d = true -> da_wf d ->
  let e := if en =? -1 then da_nt d else en in
  0 <= bg <= e -> e <= da_nt d ->
  exists l, subArray d bg en = Ok (DA true (da_nc d) (Some <$> l)) /\ zlen l = (e - bg) * da_nc d /\
    forall i, 0 <= i < e - bg -> forall j, ij (DA true (da_nc d) l) i j = ij d (bg + i) j.
Proof.
  intros Ha Hwf e He1 He2. destruct (da_wf_len d Hwf) as (Hv & Hn & Hnc).
  assert (Hw : wp (subArray d bg en) (fun r => exists l, r = DA true (da_nc d) (Some <$> l) /\ zlen l = (e - bg) * da_nc d /\
    forall i, 0 <= i < e - bg -> forall j, ij (DA true (da_nc d) l) i j = ij d (bg + i) j) False).
  { unfold subArray, checkAllocated. rewrite Ha. simpl.
    wstep; [lia|intros _]. wstep; [lia|intros _]. wstep; [subst e; destruct (en =? -1) eqn:E; simpl; lia|intros _].
    fold e. wstep. apply wp_alloc; [lia|done|]. wstep. apply wp_copyc; try nia.
    { rewrite zlen_malloc. nia. }
    intros dst Hl Hd. rewrite zlen_malloc in Hl. simpl.
    assert (Hl' : zlen dst = (e - bg) * da_nc d) by nia.
    assert (Hd' : forall v j, 0 <= v < e - bg -> 0 <= j < da_nc d -> dst @ (v * da_nc d + j) = Some <$> da_vals d @ ((bg + v) * da_nc d + j)).
    { intros v j Hv' Hj. rewrite Hd. replace ((0 <=? v * da_nc d + j) && (v * da_nc d + j <? 0 + (e * da_nc d - bg * da_nc d))) with true by nia.
      do 2 f_equal. nia. }
    destruct (flat_all_some (da_nc d) (e - bg) dst) as [l ->]; [done|done| |].
    { intros v j Hv' Hj. rewrite Hd' by done. destruct (flat_lookup (da_nc d) (da_nt d) (da_vals d) (bg + v) j) as [x ->]; [done|lia|done|by eexists]. }
    rewrite zlen_fmap in Hl'. exists l. split; [done|]. split; [done|]. intros i Hi.
    apply ij_eq; try done; try lia. cbn [da_nc da_vals]. intros j Hj. specialize (Hd' i j Hi Hj).
    rewrite zlook_fmap in Hd'. destruct (l @ _), (da_vals d @ _); simpl in Hd'; congruence. }
  apply wp_ok in Hw as (r & -> & l & -> & Hl & Hij). eauto.
Qed.

Lemma subArray_throw d bg en : da_alloc d = true ->
  subArray d bg en = Throw <-> bg < 0 \/ da_nt d < bg \/ (en <> -1 /\ da_nt d < en).
Proof.
  intros Ha. unfold subArray, checkAllocated, ifthrow. rewrite Ha. simpl.
  destruct (bg <? 0) eqn:E1; [split; [lia|done]|].
  destruct (da_nt d <? bg) eqn:E2; [split; [lia|done]|].
  destruct (negb (en =? -1) && (da_nt d <? en)) eqn:E3; [split; [lia|done]|].
  split; [|lia]. unfold alloc, ubif. destruct (_ || _) eqn:E4; [done|]. cbn [bind].
  match goal with |- context [copyc ?a ?b ?c ?d ?e] => pose proof (copyc_not_throw a b c d e); destruct (copyc a b c d e); simpl; congruence end.
Qed.


End Renum.
