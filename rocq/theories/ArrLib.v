(** Lemmas on flat arrays of tuples, shared by the proofs. *)
From Verif Require Import Base DataArray.
From Coq Require Import ZifyBool ZifyNat.

Lemma da_wf_len {A} (d : da A) : da_wf d -> zlen (da_vals d) = da_nt d * da_nc d /\ 0 <= da_nt d /\ 0 <= da_nc d.
Proof.
  intros (Hnc & n & Hn & Hl). unfold da_nt. destruct (Z.eqb_spec (da_nc d) 0) as [E|E].
  - rewrite E in *. lia.
  - rewrite Hl, Z.quot_mul by lia. lia.
Qed.

Lemma da_nt_mul {A} b nc (l : list A) n : 0 < nc -> 0 <= n -> zlen l = n * nc -> da_nt (DA b nc l) = n.
Proof.
  intros Hnc Hn Hl. unfold da_nt. cbn [da_nc da_vals]. destruct (Z.eqb_spec nc 0); [lia|]. rewrite Hl, Z.quot_mul by lia. done.
Qed.

Lemma da_nt_vec {A} (l : list A) : da_nt (vec l) = zlen l.
Proof. unfold da_nt, vec. cbn [da_nc da_vals]. simpl (1 =? 0). cbn iota. apply Z.quot_1_r. Qed.

Lemma da_nt_one {A} (d : da A) : da_nc d = 1 -> da_nt d = zlen (da_vals d).
Proof. intros H. unfold da_nt. rewrite H. apply Z.quot_1_r. Qed.

Lemma idx_eqb nc v w j : 0 <= j < nc -> (nc * w <=? v * nc + j) && (v * nc + j <? nc * w + nc) = (v =? w).
Proof.
  intros Hj. destruct (Z.eqb_spec v w) as [->|Hne].
  - lia.
  - apply andb_false_iff. destruct (Z.lt_trichotomy v w) as [?|[?|?]]; [left|lia|right]; nia.
Qed.

Lemma flat_split nc i : 0 < nc -> 0 <= i -> i = (i / nc) * nc + i mod nc /\ 0 <= i / nc /\ 0 <= i mod nc < nc.
Proof.
  intros Hnc Hi. pose proof (Z.div_mod i nc). pose proof (Z.mod_pos_bound i nc). pose proof (Z.div_pos i nc). nia.
Qed.

Lemma flat_ext {A} nc n (l k : list A) : 0 <= nc -> zlen l = n * nc -> zlen k = n * nc ->
  (forall v j, 0 <= v < n -> 0 <= j < nc -> l @ (v * nc + j) = k @ (v * nc + j)) -> l = k.
Proof.
  intros Hnc Hl Hk H. apply zlook_ext_lt; [congruence|]. intros i Hi.
  assert (nc <> 0) by (intros ->; lia). destruct (flat_split nc i) as (Heq & Hq & Hm); [lia..|].
  rewrite Heq. apply H; [|done]. nia.
Qed.

Lemma all_some {A} (l : list (option A)) :
  (forall i, 0 <= i < zlen l -> exists x, l @ i = Some (Some x)) -> exists k, l = Some <$> k.
Proof.
  induction l as [|x l IH]; intros H; [by exists []|].
  destruct IH as [k ->].
  { intros i Hi. destruct (H (i + 1)) as [y Hy]; [rewrite zlen_cons; lia|].
    rewrite zlook_cons in Hy. destruct (Z.eqb_spec (i + 1) 0); [lia|]. exists y. rewrite <- Hy. f_equal. lia. }
  destruct (H 0) as [y Hy]; [rewrite zlen_cons; pose proof (zlen_nonneg (Some <$> k)); lia|].
  rewrite zlook_cons in Hy. simpl in Hy. injection Hy as ->. exists (y :: k). done.
Qed.

Lemma flat_all_some {A} nc n (l : list (option A)) : 0 <= nc -> zlen l = n * nc ->
  (forall v j, 0 <= v < n -> 0 <= j < nc -> exists x, l @ (v * nc + j) = Some (Some x)) -> exists k, l = Some <$> k.
Proof.
  intros Hnc Hl H. apply all_some. intros i Hi. assert (nc <> 0) by (intros ->; lia).
  destruct (flat_split nc i) as (Heq & Hq & Hm); [lia..|]. rewrite Heq. apply H; [|done]. nia.
Qed.

(** Copy of one tuple, the shape of every tuple loop. *)
Lemma wp_copy_tuple {A} nc (src : list A) a a' a'' (dst : list (option A)) d d' (Q : list (option A) -> Prop) (T : Prop) :
  a' = nc * a -> a'' = nc * a + nc -> d' = nc * d ->
  0 <= nc -> 0 <= a -> (a + 1) * nc <= zlen src -> 0 <= d -> (d + 1) * nc <= zlen dst ->
  (forall dst', zlen dst' = zlen dst ->
     (forall v j, 0 <= j < nc -> dst' @ (v * nc + j) = if v =? d then Some <$> (src @ (a * nc + j)) else dst @ (v * nc + j)) ->
     Q dst') ->
  wp (copyc src a' a'' dst d') Q T.
Proof.
  intros -> -> -> Hnc Ha Hal Hd Hdl HQ. apply wp_copyc; try nia.
  intros dst' Hl Hk. apply HQ; [done|]. intros v j Hj. rewrite Hk.
  replace (nc * d + (nc * a + nc - nc * a)) with (nc * d + nc) by lia.
  rewrite idx_eqb by done. destruct (Z.eqb_spec v d) as [->|]; [|done]. do 2 f_equal. lia.
Qed.

Lemma idx_lt nc v n j : 0 <= v < n -> 0 <= j < nc -> 0 <= v * nc + j < n * nc.
Proof. nia. Qed.

Lemma flat_lookup {A} nc n (l : list A) v j : zlen l = n * nc -> 0 <= v < n -> 0 <= j < nc -> exists x, l @ (v * nc + j) = Some x.
Proof. intros Hl Hv Hj. apply zlook_lt. rewrite Hl. apply idx_lt; done. Qed.

Lemma zlook_malloc_flat A nc n v j : 0 <= v < n -> 0 <= j < nc -> (malloc A (nc * n)) @ (v * nc + j) = Some None.
Proof. intros. apply zlook_malloc. nia. Qed.

Lemma wp_alloc A n nc (Q : list (option A) -> Prop) (T : Prop) :
  0 <= n -> 0 <= nc -> Q (malloc A (nc * n)) -> wp (alloc A n nc) Q T.
Proof. intros Hn Hnc HQ. unfold alloc. apply wp_ubif; [lia|]. done. Qed.

Lemma wp_if {A} (c : bool) (a b : res A) (Q : A -> Prop) (T : Prop) :
  (c = true -> wp a Q T) -> (c = false -> wp b Q T) -> wp (if c then a else b) Q T.
Proof. destruct c; auto. Qed.

(** A buffer filled from its beginning. *)
Lemma fill_step {A} (k : list A) m x : 0 < m -> zset ((Some <$> k) ++ malloc A m) (zlen k) (Some x) = (Some <$> (k ++ [x])) ++ malloc A (m - 1).
Proof.
  intros Hm. unfold zset, zlen, malloc. rewrite Nat2Z.id.
  replace (Z.to_nat m) with (S (Z.to_nat (m - 1))) by lia. simpl.
  rewrite fmap_app, <- app_assoc. simpl. rewrite insert_app_r_alt by (rewrite fmap_length; lia).
  rewrite fmap_length, Nat.sub_diag. done.
Qed.
Lemma fill_len {A} (k : list A) m : 0 <= m -> zlen ((Some <$> k) ++ malloc A m) = zlen k + m.
Proof. intros H. rewrite zlen_app, zlen_fmap, zlen_malloc. lia. Qed.
Lemma malloc_0 A : malloc A 0 = [].
Proof. done. Qed.
Lemma wp_fill {A} (k : list A) m p x (Q : list (option A) -> Prop) (T : Prop) :
  0 < m -> p = zlen k -> Q ((Some <$> (k ++ [x])) ++ malloc A (m - 1)) -> wp (wrc ((Some <$> k) ++ malloc A m) p x) Q T.
Proof.
  intros Hm -> HQ. apply wp_wrc; [rewrite fill_len; pose proof (zlen_nonneg k); lia|]. rewrite fill_step by done. done.
Qed.
