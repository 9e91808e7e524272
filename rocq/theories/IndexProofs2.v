From Verif Require Import Base DataArray ArrLib StdModel SlicesSpec SlicesModel SlicesProofs RenumSpec RenumProofs SearchSpec StdProofs SearchProofs IndexSpec IndexModel FillLib IndexProofs.
From Coq Require Import ZifyBool ZifyNat.

Lemma look2 (offs : list Z) id : 0 <= id < zlen offs - 1 -> exists a b, offs @ id = Some a /\ offs @ (id + 1) = Some b.
Proof. intros H. destruct (zlook_lt offs id) as [a Ha]; [lia|]. destruct (zlook_lt offs (id + 1)) as [b Hb]; [lia|]. by exists a, b. Qed.
Lemma look2' (offs : list Z) id a b : offs @ id = Some a -> offs @ (id + 1) = Some b -> (0 <=? id) && (id <? zlen offs - 1) = true.
Proof. intros Ha Hb. apply zlook_Some_lt in Ha. apply zlook_Some_lt in Hb. lia. Qed.
Lemma alloc1 A n : 0 <= n -> alloc A n 1 = Ok (malloc A n).
Proof.
  intros H. assert (Hw : wp (alloc A n 1) (fun r => r = malloc A n) False) by (apply wp_alloc; [lia|lia|rewrite Z.mul_1_l || rewrite Z.mul_1_r; done]).
  apply wp_ok in Hw as (r & -> & ->). done.
Qed.

(** ** Explicit ids of ranges *)
Definition cnt_step (offs : list Z) (n val : Z) : res Z :=
  if (0 <=? val) && (val <? zlen offs - 1) then
    let* b := rd offs (val + 1) in let* a := rd offs val in throw_if b - a <? 0 >>> Ok (n + (b - a))
  else Throw.
Definition blen (offs : list Z) (id d : Z) : Prop := exists a b, offs @ id = Some a /\ offs @ (id + 1) = Some b /\ a <= b /\ d = b - a.
Lemma blen_dec offs x : (exists b, blen offs x b) \/ forall b, ~ blen offs x b.
Proof.
  destruct (offs @ x) as [a|] eqn:Ea; [|right; intros d (a & b & H & _); congruence].
  destruct (offs @ (x + 1)) as [b|] eqn:Eb; [|right; intros d (a' & b & _ & H & _); congruence].
  destruct (decide (a <= b)); [left; exists (b - a), a, b; done|]. right. intros d (a' & b' & H1 & H2 & H3 & _). assert (a' = a /\ b' = b) as [-> ->] by (split; congruence). lia.
Qed.
Lemma cnt_step_ok offs n x b : blen offs x b -> cnt_step offs n x = Ok (n + b).
Proof.
  intros (a & c & Ha & Hb & Hab & ->). unfold cnt_step. rewrite (look2' offs x a c) by done. rewrite (rd_ok _ _ _ Hb), (rd_ok _ _ _ Ha). simpl.
  replace (c - a <? 0) with false by lia. done.
Qed.
Lemma cnt_step_throw offs n x : (forall b, ~ blen offs x b) -> cnt_step offs n x = Throw.
Proof.
  intros H. unfold cnt_step. destruct ((0 <=? x) && (x <? zlen offs - 1)) eqn:E; [|done]. destruct (look2 offs x) as (a & b & Ha & Hb); [lia|].
  rewrite (rd_ok _ _ _ Hb), (rd_ok _ _ _ Ha). simpl. destruct (Z.ltb_spec (b - a) 0); [done|]. exfalso. apply (H (b - a)). exists a, b. split; [done|]. split; [done|]. split; [lia|done].
Qed.
Lemma cnt_ok offs ids ls : Forall2 (blen offs) ids ls -> foldM (cnt_step offs) ids 0 = Ok (zsum ls).
Proof.
  intros H. apply (foldM_blocks _ (blen offs) zsum ids ls H). intros pre x b post _ Hb. rewrite (cnt_step_ok _ _ _ _ Hb), zsum_snoc. done.
Qed.
Lemma cnt_throw offs ids : (exists x, x ∈ ids /\ forall b, ~ blen offs x b) -> foldM (cnt_step offs) ids 0 = Throw.
Proof.
  intros H. apply (foldM_blocks_throw _ (blen offs) zsum ids).
  - intros x _. apply blen_dec.
  - intros pre x b _ Hb. rewrite (cnt_step_ok _ _ _ _ Hb), zsum_snoc. done.
  - intros pre x _ Hb. by apply cnt_step_throw.
  - done.
Qed.
Lemma block_len offs ids blks : Forall2 (id_block offs) ids blks -> Forall2 (blen offs) ids (zlen <$> blks).
Proof.
  intros H. induction H as [|x b ids blks Hx H IH]; [constructor|]. simpl. constructor; [|done]. destruct Hx as (a & c & Ha & Hb & Hab & ->).
  exists a, c. rewrite zlen_seqZ. do 3 (split; [done|]). lia.
Qed.
Lemma rblock_len offs ids blks : Forall2 (rep_block offs) ids blks -> Forall2 (blen offs) ids (zlen <$> blks).
Proof.
  intros H. induction H as [|x b ids blks Hx H IH]; [constructor|]. simpl. constructor; [|done]. destruct Hx as (a & c & Ha & Hb & Hab & ->).
  exists a, c. unfold zlen. rewrite replicate_length. do 3 (split; [done|]). lia.
Qed.

Section explicit.
  Context (d o : da Z) (Ha : da_alloc d = true) (Hc : da_nc d = 1) (Hao : da_alloc o = true) (Hco : da_nc o = 1).
  Lemma explicit_ok blks : Forall2 (id_block (da_vals o)) (da_vals d) blks -> buildExplicitArrByRanges d (Some o) = Ok (Some <$> concat blks).
  Proof.
    intros H. unfold buildExplicitArrByRanges, checkAllocated, checkOneComp. rewrite Ha, Hc, Hao, Hco. cbn [negb ifthrow Z.eqb Pos.eqb].
    rewrite !(da_nt_one o) by done. fold (cnt_step (da_vals o)). rewrite (cnt_ok _ _ _ (block_len _ _ _ H)). cbn [bind].
    rewrite <- zlen_concat. rewrite alloc1 by apply zlen_nonneg. cbn [bind]. set (m := zlen (concat blks)).
    set (st := fun bs : list (list Z) => (zlen (concat bs), (Some <$> concat bs) ++ malloc Z (m - zlen (concat bs)))).
    change (0, malloc Z m) with (0, (Some <$> concat []) ++ malloc Z m). replace (0, _ ++ _) with (st []) by (unfold st; rewrite Z.sub_0_r; done).
    rewrite (foldM_blocks _ (id_block (da_vals o)) st (da_vals d) blks H).
    - cbn [bind]. unfold st. rewrite fill_done by (unfold m; lia). done.
    - intros pre x b post E (a & c & Hxa & Hxb & Hab & ->). unfold st. rewrite (rd_ok _ _ _ Hxa), (rd_ok _ _ _ Hxb). cbn [bind].
      assert (zlen (concat pre) + (c - a) <= m). { unfold m. rewrite E, concat_app, zlen_app. simpl. rewrite zlen_app, zlen_seqZ by lia. pose proof (zlen_nonneg (concat post)). lia. }
      rewrite (forZ_fill _ (fun j => a + j)) by (done || lia). rewrite concat_snoc, zlen_app, zlen_seqZ by lia.
      replace ((fun j => a + j) <$> seqZ 0 (c - a)) with (seqZ a (c - a)); [do 4 f_equal; lia|].
      apply zlook_ext_lt; [rewrite zlen_fmap, !zlen_seqZ; lia|]. intros i Hi. rewrite zlen_seqZ in Hi by lia. rewrite zlook_fmap, !zlook_seqZ by lia. simpl. f_equal; lia.
  Qed.
  Lemma explicit_throw : buildExplicitArrByRanges d (Some o) = Throw <-> exists id, id ∈ da_vals d /\ forall blk, ~ id_block (da_vals o) id blk.
  Proof.
    assert (Hdec : forall x, (exists b, id_block (da_vals o) x b) \/ ~ exists b, id_block (da_vals o) x b).
    { intros x. destruct (blen_dec (da_vals o) x) as [(b & a & c & H1 & H2 & H3 & _)|Hn]; [left; exists (seqZ a (c - a)), a, c; done|].
      right. intros (b & a & c & H1 & H2 & H3 & _). apply (Hn (c - a)). exists a, c. done. }
    destruct (Forall_or_ex (fun x => exists b, id_block (da_vals o) x b) (da_vals d)) as [Hall|(x & Hx & Hn)]; [intros x _; apply Hdec| |].
    - destruct (Forall2_has _ _ Hall) as [blks Hb]. rewrite (explicit_ok _ Hb). split; [done|]. intros (id & Hid & Hn). destruct (Hall id Hid) as [b Hb']. by destruct (Hn b).
    - split; [intros _; exists x; split; [done|]; intros b Hb; apply Hn; by exists b|]. intros _.
      unfold buildExplicitArrByRanges, checkAllocated, checkOneComp. rewrite Ha, Hc, Hao, Hco. cbn [negb ifthrow Z.eqb Pos.eqb].
      rewrite !(da_nt_one o) by done. fold (cnt_step (da_vals o)). rewrite cnt_throw; [done|]. exists x. split; [done|].
      intros b (a & c & H1 & H2 & H3 & _). apply Hn. exists (seqZ a (c - a)), a, c. done.
  Qed.
End explicit.

Lemma scaled_ok d bg stop step ids blks : da_alloc d = true -> da_nc d = 1 -> 0 < da_nt d -> valid_range bg stop step -> is_range_list bg stop step ids ->
  Forall2 (rep_block (da_vals d)) ids blks -> buildExplicitArrOfSliceOnScaledArr d bg stop step = Ok (Some <$> concat blks).
Proof.
  intros Ha Hc Hn Hv Hr H. unfold buildExplicitArrOfSliceOnScaledArr. rewrite Ha, Hc. cbn [negb ifthrow Z.eqb Pos.eqb].
  replace (da_nt d =? 0) with false by lia. cbn [ifthrow]. rewrite da_nt_one in * by done. rewrite (count_is_len _ _ _ _ Hv Hr). cbn [bind].
  pose proof (arith_range _ _ _ _ Hr) as Har. pose proof (zlen_nonneg ids).
  rewrite (forZ_arith (cnt_step (da_vals d)) _ bg step (zlen ids)); [|intros i s id; unfold cnt_step; destruct ((0 <=? id) && (id <? zlen (da_vals d) - 1)); [|done]|done].
  2: { destruct (rd (da_vals d) (id + 1)) as [vb| | |]; [|done..]. cbn [bind]. destruct (rd (da_vals d) id) as [va| | |]; [|done..]. cbn [bind]. destruct (vb - va <? 0); done. }
  rewrite <- Har. rewrite (cnt_ok _ _ _ (rblock_len _ _ _ H)). cbn [bind].
  rewrite <- zlen_concat. rewrite alloc1 by apply zlen_nonneg. cbn [bind]. set (m := zlen (concat blks)).
  pose (f := fun '(p, ret) pos => let* b := rd (da_vals d) (pos + 1) in let* a := rd (da_vals d) pos in
     forZ 0 (b - a) (fun _ '(p, ret) => let* ret := wrc ret p pos in Ok (p + 1, ret)) (p, ret) : res (Z * list (option Z))).
  rewrite (forZ_arith f _ bg step (zlen ids)); [|intros i [p ret] id; unfold f|done].
  2: { destruct (rd (da_vals d) (id + 1)) as [vb| | |]; [|done..]. cbn [bind]. destruct (rd (da_vals d) id) as [va| | |]; [|done..]. cbn [bind].
       match goal with |- bind ?x _ = bind ?y _ => destruct y as [[? ?]| | |] end; done. }
  rewrite <- Har. set (st := fun bs : list (list Z) => (zlen (concat bs), (Some <$> concat bs) ++ malloc Z (m - zlen (concat bs)))).
  change (0, malloc Z m) with (0, (Some <$> concat []) ++ malloc Z m). replace (0, _ ++ _) with (st []) by (unfold st; rewrite Z.sub_0_r; done).
  rewrite (foldM_blocks _ (rep_block (da_vals d)) st ids blks H).
  - cbn [bind]. unfold st. rewrite fill_done by (unfold m; lia). done.
  - intros pre x b post E (a & c & Hxa & Hxb & Hab & ->). unfold st, f. rewrite (rd_ok _ _ _ Hxa), (rd_ok _ _ _ Hxb). cbn [bind].
    assert (zlen (replicate (Z.to_nat (c - a)) x) = c - a) as Hrep by (unfold zlen; rewrite replicate_length; lia).
    assert (zlen (concat pre) + (c - a) <= m). { unfold m. rewrite E, concat_app, zlen_app. simpl. rewrite zlen_app, Hrep. pose proof (zlen_nonneg (concat post)). lia. }
    rewrite (forZ_fill _ (fun j => x)) by (done || lia). rewrite concat_snoc, zlen_app, Hrep.
    replace ((fun j => x) <$> seqZ 0 (c - a)) with (replicate (Z.to_nat (c - a)) x); [do 4 f_equal; lia|].
    apply zlook_ext_lt; [rewrite zlen_fmap, Hrep, !zlen_seqZ; lia|]. intros i Hi. rewrite Hrep in Hi. rewrite zlook_fmap, zlook_seqZ, zlook_replicate by lia. simpl. done.
Qed.
Lemma scaled_throw d bg stop step : da_alloc d = true -> da_nc d = 1 ->
  buildExplicitArrOfSliceOnScaledArr d bg stop step = Throw <->
  da_nt d = 0 \/ ~ valid_range bg stop step \/ exists ids id, is_range_list bg stop step ids /\ id ∈ ids /\ forall blk, ~ rep_block (da_vals d) id blk.
Proof.
  intros Ha Hc. pose proof (zlen_nonneg (da_vals d)). destruct (Z.eq_dec (da_nt d) 0) as [E|E].
  { split; [by left|intros _]. unfold buildExplicitArrOfSliceOnScaledArr. rewrite Ha, Hc, E. done. }
  rewrite da_nt_one in E by done. destruct (valid_range_dec bg stop step) as [Hv|Hv].
  2: { split; [intros _; right; by left|intros _]. unfold buildExplicitArrOfSliceOnScaledArr. rewrite Ha, Hc. cbn [negb ifthrow Z.eqb Pos.eqb]. rewrite da_nt_one by done.
       replace (zlen (da_vals d) =? 0) with false by lia. cbn [ifthrow]. rewrite (proj2 (count_throw bg stop step) Hv). done. }
  destruct (range_ok bg stop step Hv) as (ids & _ & Hr).
  assert (Hdec : forall x, (exists b, rep_block (da_vals d) x b) \/ ~ exists b, rep_block (da_vals d) x b).
  { intros x. destruct (blen_dec (da_vals d) x) as [(b & a & c & H1 & H2 & H3 & _)|Hn]; [left; eexists; exists a, c; done|].
    right. intros (b & a & c & H1 & H2 & H3 & _). apply (Hn (c - a)). exists a, c. done. }
  destruct (Forall_or_ex (fun x => exists b, rep_block (da_vals d) x b) ids) as [Hall|(x & Hx & Hn)]; [intros x _; apply Hdec| |].
  - destruct (Forall2_has _ _ Hall) as [blks Hb]. rewrite (scaled_ok d bg stop step ids blks); try done; [|rewrite da_nt_one by done; lia]. split; [done|].
    intros [?|[?|(ids' & id & Hr' & Hid & Hn)]]; [rewrite da_nt_one in * by done; lia|done|]. rewrite (is_range_list_unique _ _ _ _ _ Hr' Hr) in Hid.
    destruct (Hall id Hid) as [b Hb']. by destruct (Hn b).
  - split; [intros _; right; right; exists ids, x; split; [done|]; split; [done|]; intros b Hb; apply Hn; by exists b|]. intros _.
    unfold buildExplicitArrOfSliceOnScaledArr. rewrite Ha, Hc. cbn [negb ifthrow Z.eqb Pos.eqb]. rewrite da_nt_one by done.
    replace (zlen (da_vals d) =? 0) with false by lia. cbn [ifthrow]. rewrite (count_is_len _ _ _ _ Hv Hr). cbn [bind].
    pose proof (arith_range _ _ _ _ Hr) as Har. pose proof (zlen_nonneg ids).
    rewrite (forZ_arith (cnt_step (da_vals d)) _ bg step (zlen ids)); [|intros i s id; unfold cnt_step; destruct ((0 <=? id) && (id <? zlen (da_vals d) - 1)); [|done]|done].
    2: { destruct (rd (da_vals d) (id + 1)) as [vb| | |]; [|done..]. cbn [bind]. destruct (rd (da_vals d) id) as [va| | |]; [|done..]. cbn [bind]. destruct (vb - va <? 0); done. }
    rewrite <- Har. rewrite cnt_throw; [done|]. exists x. split; [done|]. intros b (a & c & H1 & H2 & H3 & _). apply Hn. eexists. exists a, c. done.
Qed.
