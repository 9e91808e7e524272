From Coq Require Import ZifyBool ZifyNat.
From Verif Require Import Base DataArray ArrLib StdModel StdProofs RenumSpec RenumProofs SearchSpec SearchProofs PermProofs IndexSpec FillLib IndexProofs2 IndexProofs3 IndexProofs4 IndexProofs5 PartSpec PartModel PartProofs PartProofs2.

(** * changeSurjectiveFormat *)
Lemma sky_tail (tmp : list (list Z)) n N : n = zlen tmp -> N = zsum (zlen <$> tmp) ->
  (let* retI := alloc Z (n + 1) 1 in
  let* retI := wrc retI 0 0 in
  let* (retI, _) := foldM (fun '(retI, p) t => let* a := rdc retI p in let* retI := wrc retI (p + 1) (a + zlen t) in Ok (retI, p + 1)) tmp (retI, 0) in
  let* last := rdc retI n in
  throw_if negb (N =? last) >>>
  let* ret := alloc Z N 1 in
  let* (ret, _) := foldM (fun '(ret, p) t => let* ret := copyc t 0 (zlen t) ret p in Ok (ret, p + zlen t)) tmp (ret, 0) in
  Ok (ret, retI)) = Ok (Some <$> concat tmp, Some <$> psums (zlen <$> tmp)).
Proof.
  intros -> ->. rewrite alloc1 by (pose proof (zlen_nonneg tmp); lia). cbn [bind]. rewrite iost_start by apply zlen_nonneg. cbn [bind].
  set (st := fun ps : list (list Z) => (iost (zlen tmp) (zlen <$> ps), zlen ps)).
  change (iost (zlen tmp) [], 0) with (st []). rewrite (foldM_blocks _ eq st tmp tmp (Forall2_eq_refl tmp)).
  2: { intros pre x b post E ->; unfold st; assert (zlen pre < zlen tmp) by (rewrite E, zlen_app, zlen_cons; pose proof (zlen_nonneg post); lia);
       pose proof (iost_rd (zlen tmp) (zlen <$> pre)) as Hrd; rewrite zlen_fmap in Hrd; rewrite Hrd; cbn [bind];
       rewrite (iost_wr _ _ (zlen b)) by (rewrite ?zlen_fmap; lia); cbn [bind]; rewrite fmap_snoc, (zlen_app pre); done. }
  cbn [bind]. unfold st. pose proof (iost_rd (zlen tmp) (zlen <$> tmp)) as Hrd. rewrite zlen_fmap in Hrd. rewrite Hrd. cbn [bind].
  rewrite Z.eqb_refl. cbn [negb ifthrow]. rewrite <- zsum_pre.
  rewrite alloc1 by apply zlen_nonneg. cbn [bind]. rewrite ost_start. set (m := zlen (concat tmp)).
  pose (st2 := fun ps : list (list Z) => (ost m ps, zlen (concat ps))). change (ost m [], 0) with (st2 []).
  rewrite (foldM_blocks _ eq st2 tmp tmp (Forall2_eq_refl tmp)).
  2: { intros pre x b post E ->; unfold st2; pose proof (zlen_pre pre b post) as Hl; rewrite <- E in Hl; pose proof (zlen_nonneg (concat post)); pose proof (zlen_nonneg b);
       rewrite ost_copy by (unfold m; lia); cbn [bind]; rewrite sub_full, concat_snoc, zlen_app; done. }
  cbn [bind]. unfold st2. rewrite ost_end by done. rewrite <- (zlen_fmap zlen tmp), iost_end. done.
Qed.

Lemma surj_wp d n : da_alloc d = true -> da_nc d = 1 -> 0 <= n ->
  wp (changeSurjectiveFormat d n) (fun r => (forall v, v ∈ da_vals d -> 0 <= v < n) /\
    r = (Some <$> concat (ids_of (da_vals d) <$> seqZ 0 n), Some <$> psums (zlen <$> (ids_of (da_vals d) <$> seqZ 0 n)))) (out_of_range n (da_vals d)).
Proof.
  intros Ha Hc Hn. unfold changeSurjectiveFormat, checkAllocated, checkOneComp. rewrite Ha, Hc. cbn [negb ifthrow Z.eqb Pos.eqb].
  replace (n <? 0) with false by lia. cbn [ifthrow]. rewrite (da_nt_one d Hc). set (l := da_vals d).
  assert (Hmk : forall P : Z -> list Z, zlen (P <$> seqZ 0 n) = n) by (intros P; rewrite zlen_fmap, zlen_seqZ; lia).
  eapply wp_bind'.
  { apply (wp_forZ (fun i tmp => 0 <= i <= zlen l /\ tmp = ids_of (take (Z.to_nat i) l) <$> seqZ 0 n /\ zsum (zlen <$> tmp) = i /\ forall v, v ∈ take (Z.to_nat i) l -> 0 <= v < n) 0 (zlen l) _ _
      (fun tmp => tmp = ids_of l <$> seqZ 0 n /\ zsum (zlen <$> tmp) = zlen l /\ forall v, v ∈ l -> 0 <= v < n)).
    - apply zlen_nonneg.
    - split; [pose proof (zlen_nonneg l); lia|]. split; [|split].
      + apply zlook_ext_lt; [rewrite Hmk, zlen_replicate; lia|]. rewrite zlen_replicate. intros i Hi. rewrite zlook_replicate by lia. rewrite zlook_fmap, zlook_seqZ by lia. done.
      + clear. induction (Z.to_nat n); [done|]. simpl. done.
      + simpl. intros v Hv. apply elem_of_nil in Hv. done.
    - intros i tmp Hi (_ & -> & Hsum & Hin). destruct (l @ i) as [v|] eqn:Ev; [|apply zlook_None in Ev; lia]. rewrite (rd_ok _ _ _ Ev). cbn [bind].
      assert (Ht : take (Z.to_nat (i + 1)) l = take (Z.to_nat i) l ++ [v]) by (apply take_succ; done).
      destruct ((0 <=? v) && (v <? n)) eqn:E.
      2:{ simpl. exists v. split; [eapply zlook_elem; done|lia]. }
      rewrite (rd_ok _ v (ids_of (take (Z.to_nat i) l) v)) by (rewrite zlook_fmap, zlook_seqZ by lia; simpl; do 2 f_equal; lia). cbn [bind].
      rewrite wr_ok by (rewrite Hmk; lia). simpl. split; [lia|]. split; [|split].
      + apply zlook_ext_lt; [rewrite zlen_zset, !Hmk; done|]. rewrite zlen_zset, Hmk. intros j Hj. rewrite zlook_zset by (rewrite Hmk; lia).
        rewrite !zlook_fmap, zlook_seqZ by lia. simpl. rewrite Ht, ids_of_snoc. destruct (j =? v) eqn:Ej.
        * rewrite decide_True by lia. replace (0 + j) with v by lia. do 3 f_equal. unfold zlen in *. rewrite take_length. lia.
        * rewrite decide_False by lia. done.
      + rewrite fmap_zset. rewrite (zsum_zset _ _ (zlen (ids_of (take (Z.to_nat i) l) v))).
        2:{ rewrite zlook_fmap, zlook_fmap, zlook_seqZ by lia. simpl. done. }
        rewrite zlen_app, Hsum. change (zlen [i]) with 1. lia.
      + intros w. rewrite Ht. intros [Hw|Hw%elem_of_list_singleton]%elem_of_app; [auto|lia].
    - intros tmp (_ & Htmp & Hsum & Hin). assert (He : take (Z.to_nat (zlen l)) l = l) by (apply take_ge; unfold zlen; lia).
      rewrite He in Htmp, Hin. auto. }
  intros tmp (Htmp & Hsum & Hin). rewrite <- Htmp. assert (Htl : zlen tmp = n) by (rewrite Htmp; apply Hmk). clear Htmp Hmk.
  rewrite sky_tail by lia. simpl. done.
Qed.

Lemma surj_ok d n : da_alloc d = true -> da_nc d = 1 -> 0 <= n -> (forall v, v ∈ da_vals d -> 0 <= v < n) -> exists ps arr arrI,
  changeSurjectiveFormat d n = Ok (Some <$> arr, Some <$> arrI) /\ skyline ps arr arrI /\ zlen ps = n /\
  forall k p, ps @ k = Some p -> enumerates (fun i => da_vals d @ i = Some k) p.
Proof.
  intros Ha Hc Hn Hin. pose proof (surj_wp d n Ha Hc Hn) as H. destruct (changeSurjectiveFormat d n) as [r| | |]; simpl in H; try done.
  - destruct H as [_ ->]. exists (ids_of (da_vals d) <$> seqZ 0 n), (concat (ids_of (da_vals d) <$> seqZ 0 n)), (psums (zlen <$> (ids_of (da_vals d) <$> seqZ 0 n))). split; [done|].
    split; [apply skyline_psums|]. split; [rewrite zlen_fmap, zlen_seqZ; lia|]. intros k p Hk.
    pose proof (zlook_Some_lt _ _ _ Hk) as Hlt. rewrite zlen_fmap, zlen_seqZ in Hlt. rewrite zlook_fmap, zlook_seqZ in Hk by lia. injection Hk as <-. apply ids_of_enum.
  - destruct H as (v & Hv & Hnv). exfalso. auto.
Qed.
Lemma surj_throw d n : changeSurjectiveFormat d n = Throw <-> bad_shape d \/ n < 0 \/ out_of_range n (da_vals d).
Proof.
  split.
  - intros H. unfold bad_shape. destruct (da_alloc d) eqn:Ha; [|left; left; done]. destruct (decide (da_nc d = 1)) as [Hc|]; [|left; right; done].
    right. destruct (decide (n < 0)); [left; done|right]. pose proof (surj_wp d n Ha Hc ltac:(lia)) as Hw. rewrite H in Hw. done.
  - intros H. destruct (da_alloc d) eqn:Ha; [|apply bad_shape_throw; left; done]. destruct (decide (da_nc d = 1)) as [Hc|]; [|apply bad_shape_throw; right; done].
    destruct (decide (n < 0)) as [Hn|].
    { unfold changeSurjectiveFormat, checkAllocated, checkOneComp. rewrite Ha, Hc. cbn [negb ifthrow Z.eqb Pos.eqb]. replace (n <? 0) with true by lia. done. }
    destruct H as [[?|?]|[?|(v & Hv & Hnv)]]; [congruence|done|lia|].
    eapply wp_throw; [apply surj_wp; [done..|lia]|]. intros r [Hin _]. auto.
Qed.
