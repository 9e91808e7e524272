From stdpp Require Import strings.
From Verif Require Import Base ArrLib SerModel MfModel MfSpec TreeProofs TreeProofs9 MfProofs MfProofs2 MfProofs3 MfProofs4 MfProofs5 MfProofs6 TreeProofs10.
From Coq Require Import QArith ZifyBool ZifyNat.
Local Open Scope Z_scope.
Local Open Scope list_scope.

Lemma meshes_thm {I} (fs : list (option (fld I))) : exists ms refs, getDifferentMeshes fs = (ms, refs) /\ Distinct (meshOf <$> fs) ms /\ Forall2 (RefOf ms) (meshOf <$> fs) refs.
Proof. pose proof (meshes_ok fs) as H. destruct (getDifferentMeshes fs) as [ms refs]. by exists ms, refs. Qed.
Lemma arrays_thm {I} (fs : list (option (fld I))) : exists das refs, getDifferentArrays fs = (das, refs) /\ Distinct (concat (arraysOf <$> fs)) das /\ Forall2 (Forall2 (RefOf das)) (arraysOf <$> fs) refs.
Proof. pose proof (arrays_ok fs) as H. destruct (getDifferentArrays fs) as [ms refs]. by exists ms, refs. Qed.
Lemma get_meshes_thm {I} (fs : list (option (fld I))) : getMeshes fs = meshOf <$> fs.
Proof. done. Qed.
Lemma get_arrays_thm {I} (fs : list (option (fld I))) : (None ∉ fs -> getArrays fs = Ok (concat (arraysOf <$> fs))) /\ (None ∈ fs -> getArrays fs = UB).
Proof.
  unfold getArrays.
  assert (G : forall l, (None ∉ fs -> foldM (fun l f => match f with Some f => Ok (l ++ f_arrays f) | None => UB end) fs l = Ok (l ++ concat (arraysOf <$> fs))) /\
    (None ∈ fs -> foldM (fun l f => match f with Some f => Ok (l ++ f_arrays f) | None => UB end) fs l = UB)); [|by apply (G [])].
  induction fs as [|[f|] fs IH]; intros l; cbn [foldM fmap list_fmap concat].
  - split; [by rewrite app_nil_r|by intros ?%elem_of_nil].
  - cbn [bind arraysOf]. rewrite app_assoc. destruct (IH (l ++ f_arrays f)) as [I1 I2]. split; intros H; [apply I1; set_solver|apply I2]. by apply elem_of_cons in H as [H|H].
  - split; [|done]. intros H. destruct H. by left.
Qed.
Lemma constructor_thm {I} consistent (fs : list (option (fld I))) :
  ((forall fo, fo ∈ fs -> exists f, fo = Some f /\ consistent f = true) -> newMultiFields consistent fs = Ok fs) /\
  ((exists fo, fo ∈ fs /\ forall f, fo = Some f -> consistent f = false) -> newMultiFields consistent fs = Throw).
Proof.
  unfold newMultiFields.
  assert (G : forall l, ((forall fo, fo ∈ fs -> exists f, fo = Some f /\ consistent f = true) -> foldM (fun l f => match f with None => Throw | Some g => throw_if negb (consistent g) >>> Ok (l ++ [Some g]) end) fs l = Ok (l ++ fs)) /\
    ((exists fo, fo ∈ fs /\ forall f, fo = Some f -> consistent f = false) -> foldM (fun l f => match f with None => Throw | Some g => throw_if negb (consistent g) >>> Ok (l ++ [Some g]) end) fs l = Throw)); [|by apply (G [])].
  induction fs as [|[f|] fs IH]; intros l; cbn [foldM].
  - split; [by rewrite app_nil_r|]. by intros (fo & ?%elem_of_nil & _).
  - destruct (consistent f) eqn:E; cbn [negb ifthrow bind].
    + destruct (IH (l ++ [Some f])) as [I1 I2]. split; intros H.
      * rewrite I1 by (intros fo Hfo; apply H; by right). by rewrite <- app_assoc.
      * apply I2. destruct H as (fo & Hfo & H). exists fo. split; [|done]. apply elem_of_cons in Hfo as [->|Hfo]; [|done]. by rewrite (H f eq_refl) in E.
    + split; [|done]. intros H. destruct (H (Some f)) as (g & [= <-] & Hg); [by left|]. congruence.
  - cbn [bind]. split; [|done]. intros H. by destruct (H None) as (g & ? & _); [left|].
Qed.
Lemma field_at_thm {I} (fs : list (option (fld I))) id : match fs @ id with Some f => getFieldWithId fs id = Ok f | None => getFieldWithId fs id = Throw end.
Proof.
  unfold getFieldWithId. destruct (fs @ id) as [f|] eqn:E.
  - pose proof (zlook_Some_lt _ _ _ E). replace ((zlen fs <=? id) || (id <? 0)) with false by lia. cbn [ifthrow]. by apply rd_ok.
  - destruct ((zlen fs <=? id) || (id <? 0)) eqn:B; [done|]. destruct (zlook_lt fs id) as [x Hx]; [lia|congruence].
Qed.
Lemma resolution_thm {I} (fs : list (option (fld I))) :
  (forall i f, fs @ i = Some (Some f) -> (forall j, 0 <= j < i -> fs @ j = Some None) -> getTimeResolution fs = Ok (f_tol f)) /\
  ((forall f, Some f ∉ fs) -> getTimeResolution fs = Throw).
Proof.
  induction fs as [|[g|] fs [I1 I2]]; cbn [getTimeResolution].
  - split; [|done]. intros i f H. apply zlook_Some_lt in H. change (zlen (A := option (fld I)) []) with 0 in H. lia.
  - split; [|intros H; destruct (H g); by left]. intros i f Hi Hj. pose proof (zlook_Some_lt _ _ _ Hi). destruct (decide (i = 0)) as [->|]; [rewrite zlook_cons in Hi by lia; by injection Hi as <-|].
    specialize (Hj 0 ltac:(lia)). by rewrite zlook_cons in Hj by lia.
  - split; [|intros H; apply I2; intros f Hf; apply (H f); by right]. intros i f Hi Hj. pose proof (zlook_Some_lt _ _ _ Hi). rewrite zlook_cons in Hi by lia. destruct (Z.eqb_spec i 0); [done|].
    apply (I1 (i - 1)); [done|]. intros j Hj'. specialize (Hj (j + 1) ltac:(lia)). rewrite zlook_cons in Hj by lia. destruct (Z.eqb_spec (j + 1) 0); [lia|]. by replace (j + 1 - 1) with j in Hj by lia.
Qed.
Lemma null_ser {I} (fs : list (option (fld I))) : None ∈ fs -> getTinySerializationInformation fs = UB.
Proof.
  intros HN. unfold getTinySerializationInformation. pose proof (meshes_ok fs) as HM. pose proof (arrays_ok fs) as HA. destruct (getDifferentMeshes fs) as [ms refs]. destruct (getDifferentArrays fs) as [das refs2].
  destruct HM as [_ HM], HA as [_ HA]. apply Forall2_length in HM. rewrite fmap_length in HM. clear HA. rewrite sum_sizes.
  set (N := zlen (concat refs2)). pose proof (zlen_nonneg (concat refs2) : 0 <= N) as HN0. assert (E : zlen refs = zlen fs) by (unfold zlen; lia). rewrite E. set (n := zlen fs) in *. pose proof (zlen_nonneg fs : 0 <= n) as Hn.
  set (L := 0 + N + 5 * n + 3).
  assert (W : forall (v : list Z) i x, zlen v = L -> 0 <= i < L -> exists v', wr v i x = Ok v' /\ zlen v' = L). { intros v i x Hv Hi. rewrite wr_ok by lia. eexists. split; [done|]. by rewrite zlen_zset. }
  destruct (W (replicate (Z.to_nat L) 0) 0 n) as (v1 & -> & H1); [rewrite zlen_replicate; lia|lia|]. cbn [bind].
  destruct (W v1 1 (0 + N)) as (v2 & -> & H2); [done|lia|]. cbn [bind].
  apply elem_of_zlook in HN as (i0 & Hi0). pose proof (zlook_Some_lt _ _ _ Hi0) as B0. fold n in B0.
  match goal with |- context [forZ 0 n ?body ?s0] => assert (R : forZ 0 n body s0 = UB); [|by rewrite R] end.
  match goal with |- forZ 0 n ?body ?s0 = UB => assert (G : forall m, (m <= length fs)%nat ->
     (forZ 0 (Z.of_nat m) body s0 = UB) \/ (i0 >= Z.of_nat m /\ exists v a b, zlen v = L /\ forZ 0 (Z.of_nat m) body s0 = Ok (v, a, b))) end.
  { induction m as [|m IH]; intros Hm; [right; split; [lia|]; by exists v2, [], []|]. replace (Z.of_nat (S m)) with (Z.of_nat m + 1) by lia. rewrite forZ_snoc by lia.
    destruct IH as [->|(HI & v & a & b & Hv & ->)]; [lia|by left|]. cbn [bind]. destruct (zlook_lt fs (Z.of_nat m)) as [[f|] Hf]; [unfold zlen; lia|..]; rewrite (rd_ok _ _ _ Hf); cbn [bind]; [|by left].
    right. split; [destruct (decide (i0 = Z.of_nat m)) as [->|]; [congruence|lia]|].
    assert (Z.of_nat m < n) by (unfold n, zlen; lia).
    destruct (W v (3 * n + 3 + Z.of_nat m) (zlen (tinyDbl2 f))) as (w1 & -> & J1); [done|lia|]. cbn [bind].
    destruct (W w1 (4 * n + 3 + Z.of_nat m) (zlen (tinyInt2 f))) as (w2 & -> & J2); [done|lia|]. cbn [bind]. by eexists _, _, _. }
  destruct (G (length fs)) as [G1|[G1 _]]; [lia|exact G1|unfold n, zlen in *; lia].
Qed.
Lemma get_meshes_at {I} (fs : list (option (fld I))) i f : fs @ i = Some f -> getMeshes fs @ i = Some (meshOf f).
Proof. intros H. unfold getMeshes. by rewrite zlook_fmap, H. Qed.
Lemma equal_arrays : exists (a b : list (option (fld Z))), isEqual (fun f g => f_info f =? f_info g) a b = Ok true /\
  ~ SamePattern (concat (arraysOf <$> a)) (concat (arraysOf <$> b)).
Proof.
  set (f := fun p a : Z => Fld p 1 0 (Some 0) 4 [Some a] "" 0%Q []). exists [Some (f 1 0); Some (f 2 0)], [Some (f 3 0); Some (f 4 1)]. split; [done|].
  intros (_ & _ & H). specialize (H 0 1 (Some 0) (Some 0) (Some 0) (Some 1) eq_refl eq_refl eq_refl eq_refl). by pose proof (proj1 H eq_refl).
Qed.
