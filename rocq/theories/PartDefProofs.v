From Verif Require Import Base DataArray ArrLib SlicesSpec SlicesModel SlicesProofs RenumSpec RenumModel RenumProofs RenumProofs2 SearchSpec StdModel StdProofs SearchProofs IndexSpec IndexModel FillLib IndexProofs IndexProofs2 IndexProofs3 IndexProofs5 IndexProofs6 LayoutModel SkyModel SkyProofs PartDefModel PartDefSpec.
From Coq Require Import ZifyBool ZifyNat.

Lemma checkArr_vec {A} l (k : res A) : checkArr (vec l) k = k.
Proof. done. Qed.
Lemma vec_wf (l : list Z) : da_wf (vec l).
Proof. split; simpl; [lia|]. exists (zlen l). pose proof (zlen_nonneg l). lia. Qed.
Lemma checkLight_ok {A} p l (k : res A) : denotes p l -> checkLight p k = k.
Proof. destruct p; simpl; [done|]. intros ->. done. Qed.
Lemma toDAI_ok p l : denotes p l -> toDAI p = Ok (vec l).
Proof.
  destruct p as [b e s|d]; simpl.
  - intros [Hv Hl]. rewrite (range_list_eq b e s l Hv Hl). cbn [bind]. rewrite initialised_ok. done.
  - intros ->. done.
Qed.
Lemma toDAI_throw b e s : toDAI (PSlice b e s) = Throw <-> ~ valid_range b e s.
Proof.
  destruct (decide (0 < s \/ s < 0 \/ s = 0)) as [Hd|]; [|lia]. split.
  - intros H Hv. destruct (range_ok b e s Hv) as (l & Hl & Hr). rewrite (toDAI_ok (PSlice b e s) l) in H; done.
  - intros Hv. simpl. apply (range_throw b e s) in Hv. rewrite Hv. done.
Qed.
Lemma count_ok p l : denotes p l -> ~ goes_down p -> getNumberOfElems p = Ok (zlen l).
Proof.
  destruct p as [b e s|d]; simpl.
  - intros [Hv Hl] Hd. apply bes_len; [|done]. unfold valid_range in Hv. lia.
  - intros -> _. rewrite checkArr_vec, da_nt_vec. done.
Qed.
Lemma count_down p : goes_down p -> getNumberOfElems p = Throw.
Proof. destruct p as [b e s|d]; simpl; [|done]. intros H. apply bes_throw. by left. Qed.
Lemma deepCopy_ok p l : denotes p l -> deepCopy p = Ok p.
Proof. destruct p; simpl; [done|]. intros ->. done. Qed.
Lemma simplify_ok p l : denotes p l -> exists q, tryToSimplify p = Ok q /\ denotes q l /\ (is_slice q <-> exists b e s, denotes (PSlice b e s) l).
Proof.
  destruct p as [b e s|d]; simpl.
  - intros [Hv Hl]. exists (PSlice b e s). split; [done|]. split; [done|]. split; [|done]. intros _. exists b, e, s. done.
  - intros ->. rewrite checkArr_vec. destruct (isRange_correct l) as [(a & b & c & -> & Hr)|[-> Hr]].
    + cbn [bind]. exists (PSlice a b c). assert (denotes (PSlice a b c) l) as Hd.
      { assert (valid_range a b c) as Hv. { destruct (decide (c = 0)) as [->|]; [|]; [exfalso; assert (Range a b 0 = Throw) as E by (apply range_throw; unfold valid_range; lia); congruence|].
          unfold valid_range. split; [done|]. split; intros; (destruct (decide (0 < c)); [try lia|try lia]); exfalso;
            (assert (Range a b c = Throw) as E by (apply range_throw; unfold valid_range; lia); congruence). }
        destruct (range_ok a b c Hv) as (l' & Hl' & Hl2). rewrite Hr in Hl'. injection Hl' as Hl'. apply (fmap_inj Some) in Hl'; [|congruence]. subst l'. done. }
      split; [done|]. split; [done|]. split; [|done]. intros _. exists a, b, c. done.
    + cbn [bind]. exists (PList (vec l)). split; [done|]. split; [done|]. split; [done|]. intros (b & e & s & Hv & Hl). apply (Hr b e s). by apply range_list_eq.
Qed.
Lemma serial_ok p l : denotes p l -> (let '(t, b) := serialize p [] [] in Unserialize t b) = Ok (p, [], []).
Proof. destruct p as [b e s|d]; simpl; [done|]. intros ->. done. Qed.
Lemma serial_list_stack d bigs : da_alloc d = true -> da_nc d = 1 -> (let '(t, b) := serialize (PList d) [] bigs in Unserialize t b) = Ok (PList d, [], bigs).
Proof.
  intros Ha Hc. unfold serialize, Unserialize. change (zlen (@nil Z) =? 0) with true. cbn [bind]. pose proof (zlen_nonneg bigs). rewrite zlen_app. change (zlen [d]) with 1.
  replace (zlen bigs + 1 - 1) with (zlen bigs) by lia. rewrite (rd_ok _ _ d) by (rewrite zlook_app_r, Z.sub_diag by lia; done). cbn [bind]. unfold newList, checkArr. rewrite Ha, Hc. cbn. do 2 f_equal.
  unfold zlen. rewrite Nat2Z.id. apply take_app.
Qed.
Lemma isEqual_ok p q : isEqual p q = true <-> p = q.
Proof.
  destruct p as [b e s|[a n v]], q as [b' e' s'|[a' n' v']]; simpl; try (split; [done|congruence]).
  - rewrite !andb_true_iff, !Z.eqb_eq. split; [intros [[-> ->] ->]; done|]. intros H. injection H as -> -> ->. done.
  - rewrite !andb_true_iff, Z.eqb_eq, bool_decide_eq_true, Bool.eqb_true_iff. split; [intros [[-> ->] ->]; done|]. intros H. injection H as -> -> ->. done.
Qed.

Lemma merge_ok p q l m : denotes p l -> denotes q m -> exists n, mergeSorted p q = Ok (PList (vec n)) /\ n ≡ₚ l ++ m /\ nondecreasing n.
Proof.
  intros Hp Hq. exists (sort (l ++ m)). split.
  - unfold mergeSorted. rewrite (toDAI_ok p l Hp), (toDAI_ok q m Hq). cbn [bind]. rewrite aggregate2_ok; [|apply vec_wf..|done|].
    + cbn [bind da_vals da_nc vec]. change (Z.to_nat (0 * 1)) with 0%nat. rewrite drop_0, initialised_ok. done.
    + rewrite da_nt_vec. pose proof (zlen_nonneg m). lia.
  - split; [apply sort_perm|]. intros i j x y Hij Hx Hy. pose proof (sort_sorted (l ++ m)) as Hs. revert Hs Hij Hx Hy. generalize (sort (l ++ m)). clear. intros L Hs. revert i j.
    induction Hs as [|z L Hs IH Hf]; intros i j Hij Hx Hy; [by rewrite zlook_nil in Hx|]. rewrite zlook_cons in Hx, Hy. pose proof (zlook_Some_lt _ _ _ Hy) as H1 || idtac.
    destruct (i =? 0) eqn:Ei; destruct (j =? 0) eqn:Ej; try lia.
    + injection Hx as <-. rewrite Forall_forall in Hf. apply Hf. eapply zlook_elem; done.
    + apply zlook_Some_lt in Hx. lia.
    + apply (IH (i - 1) (j - 1)); try done; lia.
Qed.
Lemma add_ok p q l m : denotes p l -> denotes q m -> ~ same_negative_step p q -> exists r n, add p q = Ok r /\ denotes r n /\ n ≡ₚ l ++ m /\ nondecreasing n.
Proof.
  intros Hp Hq Hn. assert (exists r n, mergeSorted p q = Ok r /\ denotes r n /\ n ≡ₚ l ++ m /\ nondecreasing n) as Hm.
  { destruct (merge_ok p q l m Hp Hq) as (n & ? & ? & ?). exists (PList (vec n)), n. done. }
  destruct p as [b e s|d], q as [b' e' s'|d']; try exact Hm. cbn [add]. destruct (s =? s') eqn:Es; [|exact Hm]. assert (s' = s) by lia. subst s'.
  destruct Hp as [Hv Hl], Hq as [Hv' Hl']. simpl in Hn. assert (0 < s) as Hs by (unfold valid_range in *; lia). unfold getEffectiveStop.
  rewrite (bes_len b e s l) by (unfold valid_range in *; try lia; done). cbn [bind].
  destruct (_ =? b') eqn:Eb; [|exact Hm]. clear Hm. assert (b' = b + zlen l * s) by lia. subst b'. pose proof (zlen_nonneg l).
  exists (PSlice b e' s), (l ++ m). split; [done|].
  assert (b + zlen l * s <= e') as Hle by (unfold valid_range in *; lia).
  assert (is_range_list b e' s (l ++ m)) as Hr.
  { intros k v. rewrite zlook_app. destruct (k <? zlen l) eqn:Ek.
    - rewrite (Hl k v). unfold before. split; [intros (? & -> & ?); nia|]. intros (? & -> & ?). split; [done|]. split; [done|]. left. split; [done|].
      destruct (zlook_lt l k) as [w Hw]; [lia|]. apply Hl in Hw as (? & -> & ?). unfold before in *. lia.
    - rewrite (Hl' (k - zlen l) v). unfold before. split; [intros (? & -> & ?); nia|]. intros (? & -> & ?). nia. }
  split; [split; [unfold valid_range in *; lia|done]|]. split; [done|]. intros i j x y Hij Hx Hy. apply Hr in Hx as (? & -> & ?), Hy as (? & -> & ?). nia.
Qed.
Lemma add_down p q l : denotes p l -> goes_down p -> same_negative_step p q -> add p q = Throw.
Proof.
  destruct p as [b e s|d], q as [b' e' s'|d']; simpl; try done. intros [Hv _] Hd [<- Hs]. rewrite Z.eqb_refl. unfold getEffectiveStop. rewrite (proj2 (bes_throw b e s)) by (by left). done.
Qed.

Lemma select_composed l m : (forall v, v ∈ l -> 0 <= v < zlen m) -> exists n, mySelectByTupleIdSafe (vec m) l = Ok (DA true 1 (Some <$> n)) /\ composed l m n.
Proof.
  intros Hin. assert (forall v, v ∈ l -> 0 <= v < da_nt (vec m)) as Hin' by (rewrite da_nt_vec; done). rewrite selectSafe_same; [|done|apply vec_wf|intros (v & H1 & H2); apply H2; auto].
  destruct (select_ok (vec m) l eq_refl (vec_wf m) Hin') as (n & -> & Hn & Hij). cbn [da_nc vec] in *. exists n. split; [done|].
  unfold composed. apply Forall2_same_length_lookup_2; [unfold zlen in *; lia|]. intros k i x Hi Hx. assert (l @ Z.of_nat k = Some i) as Hi'.
  { rewrite zlook_nat. done. }
  assert (n @ Z.of_nat k = Some x) as Hx'. { rewrite zlook_nat. done. }
  specialize (Hij _ _ Hi' 0). pose proof (zlook_Some_lt _ _ _ Hi'). pose proof (Hin i ltac:(eapply zlook_elem; done)).
  rewrite !ij_flat in Hij by (cbn [da_nc vec]; lia). cbn [da_nc da_vals vec] in Hij. rewrite !Z.mul_1_r, !Z.add_0_r in Hij. congruence.
Qed.
Lemma compose_ok p q l m : denotes p l -> denotes q m -> (forall v, v ∈ l -> 0 <= v < zlen m) -> exists r n, composeWith p q = Ok r /\ denotes r n /\ composed l m n.
Proof.
  intros Hp Hq Hin. unfold composeWith. rewrite (checkLight_ok p l), (checkLight_ok q m) by done. destruct (select_composed l m Hin) as (n & Hsel & Hc).
  destruct p as [b e s|d].
  - destruct Hp as [Hv Hl]. rewrite (toDAI_ok q m Hq). cbn [bind]. rewrite (selectSlice_ok (vec m) b e s l eq_refl (vec_wf m) Hv Hl) by (rewrite da_nt_vec; done).
    rewrite Hsel. cbn [bind da_vals]. rewrite initialised_ok. exists (PList (vec n)), n. done.
  - simpl in Hp. subst d. assert (exists r n, (let* a1 := toDAI q in let* a2 := mySelectByTupleIdSafe a1 (da_vals (vec l)) in let* l0 := initialised (da_vals a2) in newList (DA true (da_nc a2) l0)) = Ok r /\ denotes r n /\ composed l m n) as Hg.
    { exists (PList (vec n)), n. rewrite (toDAI_ok q m Hq). cbn [bind da_vals vec]. rewrite Hsel. cbn [bind da_vals]. rewrite initialised_ok. done. }
    destruct q as [a e c|d']; [|exact Hg]. cbn zeta. destruct (c =? 1) eqn:E; [|exact Hg]. clear Hg. assert (c = 1) by lia. subst c. destruct Hq as [Hv Hl].
    exists (PList (vec ((fun x => x + a) <$> l))), ((fun x => x + a) <$> l). split; [|split; [done|]].
    + rewrite da_nt_vec. cbn [da_vals vec]. pose proof (zlen_nonneg l). rewrite alloc1 by done. cbn [bind].
      assert (forall body, (forall i arr, 0 <= i < zlen l -> body i arr = (let* x := rd l i in wrc arr i (x + a))) -> forZ 0 (zlen l) body (malloc Z (zlen l)) = Ok (Some <$> ((fun x => x + a) <$> l))) as Hf.
      { intros body Hb. apply wp_ok_eq. apply (wp_forZ (fun i arr => zlen arr = zlen l /\ forall k, 0 <= k < i -> arr @ k = Some <$> ((fun x => x + a) <$> (l @ k)))).
        - done.
        - split; [rewrite zlen_malloc; lia|lia].
        - intros i arr Hi (Hla & Hs). rewrite Hb by done. destruct (zlook_lt l i Hi) as [x Hx]. rewrite (rd_ok _ _ x Hx). cbn [bind]. unfold wrc. rewrite wr_ok by lia. cbn [wp]. split; [by rewrite zlen_zset|].
          intros k Hk. rewrite zlook_zset by lia. destruct (k =? i) eqn:Eki; [assert (k = i) as -> by lia; rewrite Hx; done|]. apply Hs. lia.
        - intros arr (Hla & Hs). cbn [wp]. symmetry. apply zlook_ext_lt; [rewrite !zlen_fmap; done|]. intros k Hk. rewrite !zlen_fmap in Hk. rewrite !zlook_fmap, Hs by lia. done. }
      erewrite Hf by done. cbn [bind]. rewrite initialised_ok. done.
    + unfold composed. clear -Hl Hin. induction l as [|x l IH]; [constructor|]. rewrite fmap_cons. constructor.
      * assert (0 <= x < zlen m) as Hx by (apply Hin; left). destruct (zlook_lt m x Hx) as [y Hy]. rewrite Hy. apply Hl in Hy as (_ & -> & _). f_equal. lia.
      * apply IH. intros v Hv. apply Hin. by right.
Qed.
Lemma compose_throw l q m : denotes q m -> ~ step_one q -> (exists v, v ∈ l /\ ~ 0 <= v < zlen m) -> composeWith (PList (vec l)) q = Throw.
Proof.
  intros Hq Hs Hv. unfold composeWith. rewrite (checkLight_ok q m) by done. cbn [checkLight]. rewrite checkArr_vec.
  assert ((let* a1 := toDAI q in let* a2 := mySelectByTupleIdSafe a1 (da_vals (vec l)) in let* l0 := initialised (da_vals a2) in newList (DA true (da_nc a2) l0)) = Throw) as Hg.
  { rewrite (toDAI_ok q m Hq). cbn [bind da_vals vec]. rewrite (proj2 (selectSafe_throw (vec m) l eq_refl (vec_wf m))); [done|]. rewrite da_nt_vec. exact Hv. }
  destruct q as [a e c|d']; cbn zeta; [|exact Hg]. simpl in Hs. replace (c =? 1) with false by lia. exact Hg.
Qed.
