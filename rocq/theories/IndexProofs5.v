From Verif Require Import Base DataArray ArrLib StdModel SlicesSpec SlicesModel SlicesProofs RenumSpec RenumProofs SearchSpec StdProofs SearchProofs IndexSpec IndexModel FillLib IndexProofs IndexProofs2 IndexProofs3 IndexProofs4.
From Coq Require Import ZifyBool ZifyNat.

(** ** SetPartOfIndexedArrays: refusals *)
Lemma setpart_throw {A} (old : list (list A)) arr idx src srcIdx ids : skyline old arr idx -> zlen ids < zlen srcIdx ->
  (exists i, i ∈ ids /\ ~ 0 <= i < zlen old) -> SetPartOfIndexedArrays ids arr idx src srcIdx = Throw.
Proof.
  intros Hsky Hl Hex. pose proof (zlen_nonneg old). assert (Hn : zlen idx - 1 = zlen old) by (destruct Hsky as [_ [H' _]]; rewrite zlen_fmap in H'; lia).
  unfold SetPartOfIndexedArrays. rewrite !Hn. replace (zlen old <? 0) with false by lia. cbn [ifthrow].
  match goal with |- bind (foldM ?f ids _) _ = _ => assert (G : forall ids' v off s, zlen v = zlen old -> 0 <= s -> s + zlen ids' < zlen srcIdx ->
    (exists i, i ∈ ids' /\ ~ 0 <= i < zlen old) -> foldM f ids' (v, off, s) = Throw) end.
  { induction ids' as [|x ids' IH]; intros v off s Hv Hs Hle (i & Hi & Hbad); [by apply elem_of_nil in Hi|]. rewrite zlen_cons in Hle. pose proof (zlen_nonneg ids'). cbn [foldM].
    destruct ((0 <=? x) && (x <? zlen old)) eqn:E; [|done]. unfold wr. rewrite Hv, E. cbn [bind].
    destruct (zlook_lt srcIdx s) as [s0 Hs0]; [lia|]. destruct (zlook_lt srcIdx (s + 1)) as [s1 Hs1]; [lia|]. destruct (look2 idx x) as (a & b & Ha & Hb); [lia|].
    rewrite (rd_ok _ _ _ Hs1), (rd_ok _ _ _ Hs0), (rd_ok _ _ _ Hb), (rd_ok _ _ _ Ha). cbn [bind]. apply IH; [by rewrite zlen_zset|lia|lia|].
    exists i. split; [|done]. apply elem_of_cons in Hi as [->|Hi]; [lia|done]. }
  rewrite G; [done| |lia|lia|done]. unfold zlen. rewrite replicate_length. unfold zlen. lia.
Qed.
Lemma setpart_slice_throw {A} (old : list (list A)) arr idx src srcIdx start stop step ids : skyline old arr idx -> valid_range start stop step -> is_range_list start stop step ids ->
  zlen ids < zlen srcIdx -> (exists i, i ∈ ids /\ ~ 0 <= i < zlen old) -> SetPartOfIndexedArraysSlice start stop step arr idx src srcIdx = Throw.
Proof.
  intros Hsky Hv Hr Hl (i & Hi & Hbad). pose proof (zlen_nonneg old). assert (Hn : zlen idx - 1 = zlen old) by (destruct Hsky as [_ [H' _]]; rewrite zlen_fmap in H'; lia).
  unfold SetPartOfIndexedArraysSlice. rewrite !Hn. rewrite (count_is_len _ _ _ _ Hv Hr). cbn [bind].
  match goal with |- bind ?p _ = _ => assert (Hw : wp p (fun _ => False) True) end.
  { apply (wp_forZ (fun k '(off, it) => it = start + k * step /\ forall k', k' < k -> forall j, ids @ k' = Some j -> 0 <= j < zlen old)).
    - apply zlen_nonneg.
    - split; [lia|]. intros k' Hk' j Hj. apply zlook_Some_lt in Hj. lia.
    - intros k [off it] Hk [-> IH]. destruct ((0 <=? start + k * step) && (start + k * step <? zlen old)) eqn:E; [|done].
      destruct (look2 idx (start + k * step)) as (a & b & Ha & Hb); [lia|].
      wstep. wstep; [lia|]. intros s1 _. wstep. wstep; [lia|]. intros s0 _. rewrite (rd_ok _ _ _ Hb), (rd_ok _ _ _ Ha). cbn [bind wp]. split; [lia|].
      intros k' Hk' j Hj. destruct (decide (k' = k)) as [->|]; [|apply (IH k'); [lia|done]]. apply Hr in Hj as (_ & -> & _). lia.
    - intros [off it] [_ IH]. apply elem_of_zlook in Hi as [k Hk]. apply Hbad. apply (IH k); [|done]. apply zlook_Some_lt in Hk. lia. }
  match goal with |- bind ?p _ = _ => destruct p; simpl in Hw; done end.
Qed.

(** ** SetPartOfIndexedArraysSameIdx *)
Lemma copyv_ok {A} (src : list A) s0 s1 (X q Y : list A) : 0 <= s0 -> s0 <= s1 -> s1 <= zlen src -> zlen q = s1 - s0 ->
  copyv src s0 s1 (X ++ q ++ Y) (zlen X) = Ok (X ++ sub src s0 s1 ++ Y).
Proof.
  intros H0 H1 H2 Hq. pose proof (zlen_nonneg X). pose proof (zlen_nonneg Y). unfold copyv. replace (s1 <? s0) with false by lia. cbn [ubif].
  match goal with |- ?p = _ => assert (Hw : wp p (fun r => r = X ++ sub src s0 s1 ++ Y) False) end.
  { apply (wp_forZ (fun k r => zlen r = zlen (X ++ q ++ Y) /\ forall i, r @ i = if (zlen X <=? i) && (i <? zlen X + k) then src @ (s0 + (i - zlen X)) else (X ++ q ++ Y) @ i)).
    - lia.
    - split; [done|]. intros i. replace ((zlen X <=? i) && (i <? zlen X + 0)) with false by lia. done.
    - intros k r Hk [Hl Hr]. wstep. wstep; [lia|]. intros v Hv. wstep; [rewrite Hl, !zlen_app; lia|]. split; [by rewrite zlen_zset|].
      intros i. rewrite zlook_zset by (rewrite Hl, !zlen_app; lia). destruct (Z.eqb_spec i (zlen X + k)) as [->|Hne].
      + replace ((zlen X <=? zlen X + k) && (zlen X + k <? zlen X + (k + 1))) with true by lia. rewrite <- Hv. f_equal. lia.
      + rewrite Hr. replace ((zlen X <=? i) && (i <? zlen X + (k + 1))) with ((zlen X <=? i) && (i <? zlen X + k)) by lia. done.
    - intros r [Hl Hr]. apply zlook_ext_lt; [rewrite Hl, !zlen_app, zlen_sub by lia; lia|]. intros i Hi. rewrite Hl, !zlen_app in Hi. rewrite Hr.
      destruct (Z.leb_spec (zlen X) i); simpl.
      + rewrite !(zlook_app_r X) by lia. destruct (Z.ltb_spec i (zlen X + (s1 - s0))).
        * rewrite zlook_app_l by (rewrite zlen_sub by lia; lia). rewrite zlook_sub by lia. done.
        * rewrite !zlook_app_r by (rewrite ?zlen_sub by lia; lia). rewrite zlen_sub, Hq by lia. done.
      + rewrite !(zlook_app_l X) by lia. done. }
  apply wp_ok in Hw as (r & -> & ->). done.
Qed.
Lemma list_split {A} (l : list A) i x : l @ i = Some x -> l = take (Z.to_nat i) l ++ x :: drop (Datatypes.S (Z.to_nat i)) l.
Proof. intros H. apply zlook_Some_lt in H as Hl. rewrite take_drop_middle; [done|]. rewrite <- H. unfold zlook. replace (i <? 0) with false by lia. done. Qed.

Section same.
  Context {A : Type} (old : list (list A)) (arr : list A) (idx : list Z) (src : list A) (srcIdx : list Z) (ids : list Z) (news : list (list A)).
  Context (Hsky : skyline old arr idx) (Hsrc : forall k p, news @ k = Some p -> pack src srcIdx k p) (Hlen : zlen ids = zlen news).
  Notation l := (zip ids news).
  Definition fits (k : Z) : Prop := forall i p, ids @ k = Some i -> news @ k = Some p -> exists q, old @ i = Some q /\ zlen q = zlen p.
  Lemma same_wp : wp (SetPartOfIndexedArraysSameIdx ids arr idx src srcIdx)
    (fun r => (exists res, r = concat res /\ packs_replaced old ids news res /\ skyline res r idx) /\ forall k, fits k) (exists k, ~ fits k).
  Proof.
    pose proof (zlen_nonneg old). assert (Hn : zlen idx - 1 = zlen old) by (destruct Hsky as [_ [H' _]]; rewrite zlen_fmap in H'; lia).
    unfold SetPartOfIndexedArraysSameIdx. rewrite !Hn. wstep.
    apply (wp_foldM _ (fun pre '(arr', s) => s = zlen pre /\ skyline (upd old (take (length pre) l)) arr' idx /\
        (forall k, k < zlen pre -> fits k) /\ (forall i, i ∈ pre -> 0 <= i < zlen old))).
    - split; [done|]. split; [done|]. split; [|intros i Hi; by apply elem_of_nil in Hi]. intros k Hk i p Hi. apply zlook_Some_lt in Hi. change (zlen (@nil Z)) with 0 in Hk. lia.
    - intros pre x post [arr' s] E (-> & Hs & Hf & Hin). assert (Hx : ids @ zlen pre = Some x) by (rewrite E, zlook_app_r by lia; rewrite Z.sub_diag; done).
      apply zlook_Some_lt in Hx as Hpl. destruct (zlook_lt news (zlen pre)) as [p Hp]; [lia|]. destruct (Hsrc _ _ Hp) as (s0 & s1 & H0 & H1 & H2 & H3 & H4 & Ep).
      destruct ((0 <=? x) && (x <? zlen old)) eqn:Ex.
      2: { simpl. exists (zlen pre). intros Hfit. destruct (Hfit x p Hx Hp) as (q & Hq & _). apply zlook_Some_lt in Hq. lia. }
      rewrite (rd_ok _ _ _ H1), (rd_ok _ _ _ H0). cbn [bind]. set (cur := upd old (take (length pre) l)) in *.
      destruct (zlook_lt cur x) as [q Hq]; [unfold cur; rewrite upd_len; lia|]. destruct (sky_pack _ _ _ _ _ Hs Hq) as (a & b & Ha & Hb & Ha0 & Hab & Hbl & Eq).
      rewrite (rd_ok _ _ _ Hb), (rd_ok _ _ _ Ha). cbn [bind]. assert (Hql : zlen q = b - a) by (subst q; by apply zlen_sub). assert (Hpl' : zlen p = s1 - s0) by (subst p; by apply zlen_sub).
      destruct (zlook_lt old x) as [q0 Hq0]; [lia|].
      assert (Hq0l : zlen q0 = b - a). { destruct (sky_pack _ _ _ _ _ Hsky Hq0) as (a' & b' & Ha' & Hb' & ? & ? & ? & ->). assert (a' = a /\ b' = b) as [-> ->] by (split; congruence). by apply zlen_sub. }
      destruct (Z.eqb_spec (s1 - s0) (b - a)) as [Es|Es].
      2: { simpl. exists (zlen pre). intros Hfit. destruct (Hfit x p Hx Hp) as (q' & Hq' & Hl'). assert (q' = q0) as -> by congruence. lia. }
      pose proof (list_split cur x q Hq) as Hsp. set (P := take (Z.to_nat x) cur) in *. set (R := drop (Datatypes.S (Z.to_nat x)) cur) in *.
      assert (Harr : arr' = concat P ++ q ++ concat R) by (rewrite (proj1 Hs), Hsp, concat_app; done).
      assert (Haz : a = zlen (concat P)).
      { rewrite (proj2 (proj2 Hs)) in Ha by (rewrite zlen_fmap; unfold cur; rewrite upd_len; lia). injection Ha as <-. rewrite <- fmap_take. fold P. rewrite zsum_pre. done. }
      rewrite Harr, Haz, copyv_ok by (done || lia). cbn [bind wp]. rewrite <- Ep.
      assert (Hset : upd old (take (length (pre ++ [x])) l) = P ++ p :: R).
      { rewrite app_length. replace (length pre + length [x])%nat with (Z.to_nat (zlen pre + 1)) by (unfold zlen; simpl; lia).
        assert (Hlx : l @ zlen pre = Some (x, p)) by (by apply zip_look). rewrite (take_succ l (zlen pre) (x, p) Hlx). rewrite upd_snoc. simpl.
        replace (Z.to_nat (zlen pre)) with (length pre) by (unfold zlen; lia). fold cur. unfold zset. rewrite insert_take_drop by (apply zlook_Some_lt in Hq; unfold zlen in Hq; lia). done. }
      split; [rewrite zlen_app; done|]. split; [|split].
      + split; [rewrite Hset, concat_app; done|]. rewrite Hset. assert (Hlens : zlen <$> (P ++ p :: R) = zlen <$> cur).
        { rewrite Hsp. rewrite !fmap_app. simpl. rewrite Hpl', Hql, Es. done. } rewrite Hlens. apply (proj2 Hs).
      + intros k Hk. rewrite zlen_app in Hk. change (zlen [x]) with 1 in Hk. destruct (decide (k = zlen pre)) as [->|]; [|apply Hf; lia].
        intros i p' Hi' Hp'. assert (i = x /\ p' = p) as [-> ->] by (split; congruence). exists q0. split; [done|lia].
      + intros i Hi. apply elem_of_app in Hi as [Hi|Hi]; [by apply Hin|]. apply elem_of_list_singleton in Hi as ->. lia.
    - intros [arr' s] (-> & Hs & Hf & Hin). rewrite take_ge in Hs by (rewrite zip_with_length; lia). simpl. split.
      + exists (upd old l). split; [apply (proj1 Hs)|]. split; [by apply upd_replaced|done].
      + intros k. destruct (Z.lt_ge_cases k (zlen ids)); [by apply Hf|]. intros i p Hi. apply zlook_Some_lt in Hi. lia.
  Qed.
  Lemma same_ok : (forall k i p, ids @ k = Some i -> news @ k = Some p -> exists q, old @ i = Some q /\ zlen q = zlen p) ->
    exists r res, SetPartOfIndexedArraysSameIdx ids arr idx src srcIdx = Ok r /\ packs_replaced old ids news res /\ skyline res r idx.
  Proof.
    intros H. pose proof same_wp as Hw. destruct (SetPartOfIndexedArraysSameIdx ids arr idx src srcIdx) as [r| | |]; simpl in Hw; try done.
    - destruct Hw as ((res & -> & H1 & H2) & _). by exists (concat res), res.
    - exfalso. destruct Hw as (k & Hk). apply Hk. intros i p. apply H.
  Qed.
  Lemma same_throw : SetPartOfIndexedArraysSameIdx ids arr idx src srcIdx = Throw <->
    exists k i p, ids @ k = Some i /\ news @ k = Some p /\ forall q, old @ i = Some q -> zlen q <> zlen p.
  Proof.
    pose proof same_wp as Hw. destruct (SetPartOfIndexedArraysSameIdx ids arr idx src srcIdx) as [r| | |]; simpl in Hw; try done.
    - split; [done|]. destruct Hw as (_ & Hf). intros (k & i & p & Hi & Hp & Hq). destruct (Hf k i p Hi Hp) as (q & Hq1 & Hq2). by destruct (Hq q).
    - split; [intros _|done]. destruct Hw as (k & Hk). destruct (ids @ k) as [i|] eqn:Ei; [|exfalso; apply Hk; intros i p Hi; congruence].
      destruct (news @ k) as [p|] eqn:Ep; [|exfalso; apply Hk; intros i' p Hi Hp; congruence]. exists k, i, p. do 2 (split; [done|]). intros q Hq Hl. apply Hk.
      intros i' p' Hi' Hp'. assert (i' = i /\ p' = p) as [-> ->] by (split; congruence). by exists q.
  Qed.
End same.

Lemma forZ_arith2 {S} (f : Z -> S -> Z -> res S) (body : Z -> S * Z -> res (S * Z)) (g : S * Z -> Z -> res (S * Z)) a step n s :
  (forall i s id, body i (s, id) = let* s' := f i s id in Ok (s', id + step)) -> (forall s k id, g (s, k) id = let* s' := f k s id in Ok (s', k + 1)) -> 0 <= n ->
  (forZ 0 n body (s, a) = let* sk := foldM g (arith a step n) (s, 0) in Ok (fst sk, a + n * step)) /\
  (forall s' k, foldM g (arith a step n) (s, 0) = Ok (s', k) -> k = n).
Proof.
  intros Hb Hg Hn. unfold forZ, arith. rewrite Z.sub_0_r. revert n Hn. refine (natlike_ind _ _ _).
  - simpl. split; [do 2 f_equal; lia|]. intros. congruence.
  - intros m Hm [IH1 IH2]. rewrite <- Z.add_1_r, seqZ_app_r by lia. rewrite fmap_app, !foldM_app, IH1.
    destruct (foldM g _ (s, 0)) as [[s' k]| | |]; simpl; try done. rewrite (IH2 s' k eq_refl) in *. rewrite Hb, Hg, !Z.add_0_l.
    destruct (f m s' (a + m * step)); simpl; try done. split; [do 2 f_equal; lia|]. intros. congruence.
Qed.
Lemma same_slice {A} (arr : list A) idx src srcIdx start stop step ids : valid_range start stop step -> is_range_list start stop step ids ->
  SetPartOfIndexedArraysSameIdxSlice start stop step arr idx src srcIdx = SetPartOfIndexedArraysSameIdx ids arr idx src srcIdx.
Proof.
  intros Hv Hr. unfold SetPartOfIndexedArraysSameIdxSlice, SetPartOfIndexedArraysSameIdx. rewrite (count_is_len _ _ _ _ Hv Hr). cbn [bind].
  pose (f := fun s (arr : list A) it => if (0 <=? it) && (it <? zlen idx - 1) then
      let* s1 := rd srcIdx (s + 1) in let* s0 := rd srcIdx s in let* b := rd idx (it + 1) in let* a := rd idx it in
      if s1 - s0 =? b - a then copyv src s0 s1 arr a else Throw else Throw).
  match goal with |- bind (forZ 0 _ ?body _) _ = bind (foldM ?g _ _) _ =>
    destruct (forZ_arith2 f body g start step (zlen ids) arr) as [H1 H2] end; [| |apply zlen_nonneg|].
  - intros i s it. unfold f. destruct ((0 <=? it) && (it <? zlen idx - 1)); [|done]. repeat (match goal with |- context [rd ?l ?i] => destruct (rd l i); [|done..]; cbn [bind] end).
    destruct (_ =? _); [|done]. destruct (copyv _ _ _ _ _); done.
  - intros s i it. unfold f. destruct ((0 <=? it) && (it <? zlen idx - 1)); [|done]. repeat (match goal with |- context [rd ?l ?i] => destruct (rd l i); [|done..]; cbn [bind] end).
    destruct (_ =? _); [|done]. destruct (copyv _ _ _ _ _); done.
  - rewrite H1. rewrite <- (arith_range _ _ _ _ Hr). destruct (foldM _ ids (arr, 0)) as [[r k]| | |]; done.
Qed.

(** ** RemoveIdsFromIndexedArrays *)
Definition keepv (ids : list Z) (l : list Z) : list Z := filter (fun v => v ∉ ids) l.
Lemma keepv_snoc ids l v : keepv ids (l ++ [v]) = if negb (smem v (set_of ids)) then keepv ids l ++ [v] else keepv ids l.
Proof.
  unfold keepv. rewrite filter_app. destruct (smem v (set_of ids)) eqn:E; simpl.
  - rewrite smem_spec, elem_of_set_of in E. rewrite filter_cons_False by (intros Hx; by apply Hx). rewrite app_nil_r. done.
  - rewrite filter_cons_True; [done|]. intros H. rewrite <- elem_of_set_of, <- smem_spec in H. congruence.
Qed.
Lemma keepv_app ids l k : keepv ids (l ++ k) = keepv ids l ++ keepv ids k.
Proof. apply filter_app. Qed.
Lemma keepv_len ids l : zlen (keepv ids l) <= zlen l.
Proof. induction l as [|v l IH]; [done|]. unfold keepv in *. rewrite filter_cons. destruct (decide _); rewrite ?zlen_cons; lia. Qed.
Lemma keepv_full ids l : zlen (keepv ids l) = zlen l -> keepv ids l = l.
Proof.
  induction l as [|v l IH]; [done|]. unfold keepv in *. rewrite filter_cons. pose proof (keepv_len ids l) as H. unfold keepv in H. destruct (decide _); rewrite ?zlen_cons; intros E; [|lia].
  rewrite IH by lia. done.
Qed.
Definition rem1 (ids : list Z) (off : Z) (p : list Z) : list Z := keepv ids (drop (Z.to_nat off) p).
Lemma remove_ok ps arr idx ids off : skyline ps arr idx -> 0 <= off ->
  exists fl arr' idx', RemoveIdsFromIndexedArrays ids (Some arr) (Some idx) off = Ok (fl, arr', idx') /\ skyline (rem1 ids off <$> ps) arr' idx' /\ (fl = false <-> (rem1 ids off <$> ps) = ps).
Proof.
  intros Hsky Hoff. unfold RemoveIdsFromIndexedArrays. replace (off <? 0) with false by lia. cbn [ifthrow].
  destruct Hsky as [Harr Hidx]. assert (Hil : zlen idx - 1 = zlen ps) by (destruct Hidx as [H' _]; rewrite zlen_fmap in H'; lia). pose proof (zlen_nonneg ps).
  rewrite !Hil. rewrite wr_ok by lia. cbn [bind].
  assert (E0 : zset idx 0 0 = idx).
  { apply zlook_ext. intros i. rewrite zlook_zset by lia. destruct (Z.eqb_spec i 0) as [->|]; [|done]. rewrite (proj2 Hidx) by (rewrite zlen_fmap; lia). done. }
  rewrite E0. set (f := rem1 ids off).
  assert (Hidx' : forall ls r k x, zlen (psums ls) = k + 1 -> zlen r = zlen idx -> 0 <= k -> k + 1 < zlen idx -> (forall i, r @ i = if i <? k + 1 then psums ls @ i else idx @ i) ->
      forall i, zset r (k + 1) (zsum ls + x) @ i = if i <? k + 1 + 1 then psums (ls ++ [x]) @ i else idx @ i).
  { intros ls r k x Hl Hr Hk Hk2 Hlk i. rewrite zlook_zset by lia. rewrite psums_snoc_eq. destruct (Z.eqb_spec i (k + 1)) as [->|].
    - replace (k + 1 <? k + 1 + 1) with true by lia. rewrite <- Hl, zlook_snoc. done.
    - rewrite Hlk. destruct (Z.ltb_spec i (k + 1)), (Z.ltb_spec i (k + 1 + 1)); try lia; [|done]. destruct (Z.lt_ge_cases i 0); [rewrite !zlook_neg by lia; done|]. rewrite zlook_app_l by lia. done. }
  match goal with |- exists fl arr' idx', bind ?prog _ = _ /\ _ => assert (Hw : wp prog (fun '(out, idx', _) => out = concat (f <$> ps) /\ idx' = psums (zlen <$> (f <$> ps))) False) end.
  { apply (wp_forZ (fun i '(out, r, prev) => out = concat (f <$> take (Z.to_nat i) ps) /\ zlen r = zlen idx /\ prev = zsum (take (Z.to_nat i) (zlen <$> ps)) /\
        forall j, r @ j = if j <? i + 1 then psums (zlen <$> (f <$> take (Z.to_nat i) ps)) @ j else idx @ j)).
    - done.
    - split; [done|]. split; [done|]. split; [done|]. intros j. destruct (Z.ltb_spec j (0 + 1)); [|done]. destruct (decide (j = 0)) as [->|]; [|rewrite !zlook_neg by lia; done].
      rewrite (proj2 Hidx) by (rewrite zlen_fmap; lia). done.
    - intros i [[out r] prev] Hi (-> & Hr & -> & Hlk). destruct (zlook_lt ps i Hi) as [p Hp].
      assert (Hzp : (zlen <$> ps) @ i = Some (zlen p)) by (rewrite zlook_fmap, Hp; done).
      assert (Hpk : pack arr idx i p) by (eapply sky_pack; [split; [exact Harr|exact Hidx]|done]). destruct Hpk as (a & b & Ha & Hb & Ha0 & Hab & Hbl & Ep).
      rewrite (proj2 Hidx) in Ha by (rewrite zlen_fmap; lia). injection Ha as Ha. rewrite Ha.
      assert (Hlr : r @ (i + 1) = Some b) by (rewrite Hlk; replace (i + 1 <? i + 1) with false by lia; done). rewrite (rd_ok _ _ _ Hlr). cbn [bind].
      set (base := concat (f <$> take (Z.to_nat i) ps)).
      assert (Hin : wp (if off <? b - a then forZ (a + off) b (fun w out => let* v := rd arr w in Ok (if negb (smem v (set_of ids)) then out ++ [v] else out)) base else Ok base)
                (fun out => out = base ++ f p) False).
      { pose proof (zlen_sub arr a b Ha0 Hab Hbl) as Hsl. rewrite <- Ep in Hsl. destruct (Z.ltb_spec off (b - a)).
        - apply (wp_forZ (fun w out => out = base ++ keepv ids (sub arr (a + off) w))).
          + lia.
          + rewrite sub_empty by lia. rewrite app_nil_r. done.
          + intros w out Hw ->. wstep. wstep; [lia|]. intros v Hv. simpl. rewrite (sub_snoc arr (a + off) w v) by (done || lia). rewrite keepv_snoc. destruct (smem v (set_of ids)); simpl; [done|]. rewrite app_assoc. done.
          + intros out ->. unfold f, rem1. do 2 f_equal. rewrite Ep. apply zlook_ext_lt.
            * rewrite zlen_drop, !zlen_sub by lia. lia.
            * intros j Hj. rewrite zlen_sub in Hj by lia. rewrite zlook_drop by lia. rewrite !zlook_sub by lia. f_equal. lia.
        - simpl. unfold f, rem1. rewrite drop_ge by (unfold zlen in Hsl; lia). rewrite app_nil_r. done. }
      wstep. eapply wp_mono; [exact Hin| |done]. intros out ->. simpl. wstep. wstep; [lia|]. simpl.
      rewrite (take_succ ps i p Hp). rewrite !fmap_snoc, concat_snoc. fold base. split; [done|]. split; [by rewrite zlen_zset|]. split.
      { rewrite (zsum_take_succ _ _ _ Hzp). rewrite Ha. pose proof (zlen_sub arr a b Ha0 Hab Hbl) as Hsl. rewrite <- Ep in Hsl. lia. }
      assert (Hz : zlen (base ++ f p) = zsum (zlen <$> (f <$> take (Z.to_nat i) ps)) + zlen (f p)) by (rewrite zlen_app; unfold base; rewrite zsum_pre; done). rewrite Hz.
      apply Hidx'; [rewrite psums_len, !zlen_fmap, zlen_take; lia|done|lia|lia|]. done.
    - intros [[out r] prev] (-> & Hr & _ & Hlk). rewrite take_ge in * by (unfold zlen; lia). split; [done|]. apply zlook_ext_lt; [rewrite psums_len, !zlen_fmap; lia|].
      intros j Hj. rewrite Hlk. replace (j <? zlen ps + 1) with true by lia. done. }
  match goal with |- exists fl arr' idx', bind ?prog _ = _ /\ _ => destruct prog as [[[out r] prev]| | |]; simpl in Hw; try done end. destruct Hw as [-> ->]. cbn [bind].
  assert (Hle : forall p, zlen (f p) <= zlen p). { intros p. unfold f, rem1. pose proof (keepv_len ids (drop (Z.to_nat off) p)). rewrite zlen_drop in H0. pose proof (zlen_nonneg p). lia. }
  assert (Hfull : forall p, zlen (f p) = zlen p -> f p = p).
  { intros p E. unfold f, rem1 in *. pose proof (keepv_len ids (drop (Z.to_nat off) p)) as Hk. rewrite zlen_drop in Hk. pose proof (zlen_nonneg p).
    destruct (decide (off = 0)) as [->|]; [by apply keepv_full|]. assert (zlen p = 0) by lia. destruct p; [rewrite drop_nil; done|]. rewrite zlen_cons in *. pose proof (zlen_nonneg p). lia. }
  assert (Hcat : zlen arr = zlen (concat (f <$> ps)) <-> f <$> ps = ps).
  { rewrite Harr. clear -Hle Hfull. split; [|intros ->; done]. induction ps as [|p ps IH]; [done|]. simpl. rewrite !zlen_app. intros E. pose proof (Hle p).
    assert (zlen (concat (f <$> ps)) <= zlen (concat ps)). { clear -Hle. induction ps as [|q ps IH]; [done|]. simpl. rewrite !zlen_app. pose proof (Hle q). unfold fmap in IH. unfold fmap. lia. }
    rewrite Hfull by (unfold fmap in *; lia). f_equal. apply IH. unfold fmap in *. lia. }
  destruct (Z.eqb_spec (zlen arr) (zlen (concat (f <$> ps)))) as [E|E].
  - exists false, arr, (psums (zlen <$> (f <$> ps))). split; [done|]. apply Hcat in E as E2. rewrite E2. split; [|done]. split; [done|apply psums_ok].
  - exists true, (concat (f <$> ps)), (psums (zlen <$> (f <$> ps))). split; [done|]. split; [apply skyline_psums|]. split; [done|]. intros E2. apply Hcat in E2. done.
Qed.
Lemma remove0_ok ps arr idx ids : skyline ps arr idx ->
  exists fl arr' idx', RemoveIdsFromIndexedArrays ids (Some arr) (Some idx) 0 = Ok (fl, arr', idx') /\
    skyline (filter (fun v => v ∉ ids) <$> ps) arr' idx' /\ (fl = false <-> forall v, v ∈ arr -> v ∉ ids).
Proof.
  intros H. destruct (remove_ok ps arr idx ids 0 H) as (fl & arr' & idx' & H1 & H2 & H3); [lia|]. exists fl, arr', idx'. split; [done|]. split; [done|].
  rewrite H3. rewrite (proj1 H). clear. unfold rem1, keepv. change (Z.to_nat 0) with 0%nat. induction ps as [|p ps IH]; simpl; [split; [intros _ v Hv; by apply elem_of_nil in Hv|done]|].
  rewrite drop_0. split.
  - intros E. injection E as E1 E2. intros v Hv. apply elem_of_app in Hv as [Hv|Hv]; [|apply (proj1 IH E2 v Hv)]. rewrite <- E1 in Hv. apply elem_of_list_filter in Hv as [Hv _]. done.
  - intros Hall. f_equal; [|apply IH; intros v Hv; apply Hall, elem_of_app; by right]. assert (Hp : forall v, v ∈ p -> v ∉ ids) by (intros v Hv; apply Hall, elem_of_app; by left).
    clear -Hp. induction p as [|v p IH]; [done|]. rewrite filter_cons_True by (apply Hp; left). f_equal. apply IH. intros w Hw. apply Hp. by right.
Qed.
Lemma skyline_idx ls r : r = psums ls -> prefix_sums ls r.
Proof. intros ->. apply psums_ok. Qed.
Lemma remove_off_refuted : exists ps arr idx ids off fl arr' idx', skyline ps arr idx /\ 0 < off /\
  RemoveIdsFromIndexedArrays ids (Some arr) (Some idx) off = Ok (fl, arr', idx') /\
  ~ skyline ((fun p => take (Z.to_nat off) p ++ filter (fun v => v ∉ ids) (drop (Z.to_nat off) p)) <$> ps) arr' idx'.
Proof.
  exists [[5; 7; 8]], [5; 7; 8], [0; 3], [7], 1, true, [8], [0; 1]. split; [split; [done|]; apply skyline_idx; done|]. split; [lia|]. split; [vm_compute; done|].
  intros [H _]. vm_compute in H. done.
Qed.
Lemma setpart_full {A} (old : list (list A)) arr idx src srcIdx ids news :
  skyline old arr idx -> (forall k p, news @ k = Some p -> pack src srcIdx k p) -> zlen ids = zlen news ->
  (forall i, i ∈ ids -> 0 <= i < zlen old) -> NoDup ids ->
  exists k r res, SetPartOfIndexedArrays ids arr idx src srcIdx = Ok (Some <$> k, Some <$> r) /\ packs_replaced old ids news res /\ skyline res k r.
Proof.
  intros H1 H2 H3 H4 H5. exists (concat (upd old (zip ids news))), (psums (zlen <$> upd old (zip ids news))), (upd old (zip ids news)).
  split; [by apply setpart_ok|]. split; [by apply upd_replaced|apply skyline_psums].
Qed.
Lemma setpart_slice_full {A} (old : list (list A)) arr idx src srcIdx start stop step ids news :
  skyline old arr idx -> (forall k p, news @ k = Some p -> pack src srcIdx k p) -> zlen ids = zlen news ->
  (forall i, i ∈ ids -> 0 <= i < zlen old) -> valid_range start stop step -> is_range_list start stop step ids ->
  exists k r res, SetPartOfIndexedArraysSlice start stop step arr idx src srcIdx = Ok (Some <$> k, Some <$> r) /\ packs_replaced old ids news res /\ skyline res k r.
Proof.
  intros H1 H2 H3 H4 H5 H6. exists (concat (upd old (zip ids news))), (psums (zlen <$> upd old (zip ids news))), (upd old (zip ids news)).
  split; [by eapply setpart_slice_ok|]. split; [by apply upd_replaced|apply skyline_psums].
Qed.
