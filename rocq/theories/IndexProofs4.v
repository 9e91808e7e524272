From Verif Require Import Base DataArray ArrLib StdModel SlicesSpec SlicesModel SlicesProofs RenumSpec RenumProofs SearchSpec StdProofs SearchProofs IndexSpec IndexModel FillLib IndexProofs IndexProofs2 IndexProofs3.
From Coq Require Import ZifyBool ZifyNat.

Lemma forZ_blocks {B S} (body : Z -> S -> res S) (st : list B -> S) n bs : zlen bs = n ->
  (forall pre b post, bs = pre ++ b :: post -> body (zlen pre) (st pre) = Ok (st (pre ++ [b]))) -> forZ 0 n body (st []) = Ok (st bs).
Proof.
  intros <- Hs. assert (Hw : wp (forZ 0 (zlen bs) body (st [])) (fun s => s = st bs) False).
  { apply (wp_forZ (fun i s => s = st (take (Z.to_nat i) bs))).
    - apply zlen_nonneg.
    - done.
    - intros i s Hi ->. destruct (zlook_lt bs i Hi) as [b Hb]. assert (E : bs = take (Z.to_nat i) bs ++ b :: drop (Datatypes.S (Z.to_nat i)) bs).
      { rewrite take_drop_middle; [done|]. rewrite <- Hb. unfold zlook. replace (i <? 0) with false by lia. done. }
      pose proof (Hs _ _ _ E) as H. rewrite zlen_take in H. replace (Z.min (Z.of_nat (Z.to_nat i)) (zlen bs)) with i in H by lia. rewrite H. simpl.
      rewrite (take_succ bs i b Hb). done.
    - intros s ->. rewrite take_ge by (unfold zlen; lia). done. }
  apply wp_ok in Hw as (r & -> & ->). done.
Qed.

Lemma sky_pack {A} (ps : list (list A)) vals idx i p : skyline ps vals idx -> ps @ i = Some p -> pack vals idx i p.
Proof.
  intros [-> Hp] Hi. apply zlook_Some_lt in Hi as Hl. assert (Hi2 : (zlen <$> ps) @ i = Some (zlen p)) by (rewrite zlook_fmap, Hi; done).
  destruct (psums_delta _ _ i (zlen p) Hp Hi2) as (a & Ha & Hb). exists a, (a + zlen p). split; [done|]. split; [done|].
  assert (Hsp : ps = take (Z.to_nat i) ps ++ p :: drop (Datatypes.S (Z.to_nat i)) ps).
  { rewrite take_drop_middle; [done|]. rewrite <- Hi. unfold zlook. replace (i <? 0) with false by lia. done. }
  rewrite (proj2 Hp) in Ha by (rewrite zlen_fmap; lia). injection Ha as Ha. rewrite <- fmap_take, <- zsum_pre in Ha.
  pose proof (zlen_nonneg p). pose proof (zlen_nonneg (concat (take (Z.to_nat i) ps))). pose proof (zlen_nonneg (concat (drop (Datatypes.S (Z.to_nat i)) ps))).
  assert (Hlen : zlen (concat ps) = a + zlen p + zlen (concat (drop (Datatypes.S (Z.to_nat i)) ps))) by (rewrite Hsp at 1; rewrite zlen_pre; lia).
  split; [lia|]. split; [lia|]. split; [lia|].
  apply zlook_ext_lt; [rewrite zlen_sub by lia; lia|]. intros j Hj. rewrite zlook_sub by lia. rewrite Hsp at 1. rewrite concat_app. simpl.
  rewrite zlook_app_r by lia. rewrite zlook_app_l by lia. f_equal. lia.
Qed.

(** Replacing the packs one after the other. *)
Definition upd {A} (old : list (list A)) (l : list (Z * list A)) : list (list A) := foldl (fun r ip => zset r (fst ip) (snd ip)) old l.
Lemma upd_snoc {A} (old : list (list A)) l ip : upd old (l ++ [ip]) = zset (upd old l) ip.1 ip.2.
Proof. unfold upd. rewrite foldl_app. done. Qed.
Lemma upd_len {A} (old : list (list A)) l : zlen (upd old l) = zlen old.
Proof. induction l as [|ip l IH] using rev_ind; [done|]. rewrite upd_snoc, zlen_zset. done. Qed.
Lemma upd_out {A} (old : list (list A)) l i : (forall ip, ip ∈ l -> 0 <= ip.1 < zlen old) -> i ∉ l.*1 -> upd old l @ i = old @ i.
Proof.
  induction l as [|ip l IH] using rev_ind; intros Hin Hi; [done|]. rewrite upd_snoc. rewrite fmap_app in Hi. apply not_elem_of_app in Hi as [H1 H2].
  rewrite zlook_zset by (rewrite upd_len; apply Hin; set_solver). destruct (Z.eqb_spec i ip.1) as [->|]; [exfalso; apply H2; simpl; left|]. apply IH; [|done].
  intros; apply Hin; set_solver.
Qed.
Lemma upd_in {A} (old : list (list A)) l i k p : (forall ip, ip ∈ l -> 0 <= ip.1 < zlen old) -> l @ k = Some (i, p) -> (forall k', k < k' -> l.*1 @ k' <> Some i) -> upd old l @ i = Some p.
Proof.
  induction l as [|ip l IH] using rev_ind; intros Hin Hk Hlast; [by rewrite zlook_nil in Hk|]. rewrite upd_snoc. rewrite zlook_zset by (rewrite upd_len; apply Hin; set_solver).
  destruct (Z.eqb_spec i ip.1) as [E|E].
  - destruct (decide (k = zlen l)) as [->|Hne]; [rewrite zlook_snoc in Hk; injection Hk as ->; done|]. exfalso. apply zlook_Some_lt in Hk. rewrite zlen_app in Hk. change (zlen [ip]) with 1 in Hk.
    apply (Hlast (zlen l)); [lia|]. rewrite fmap_snoc. rewrite <- (zlen_fmap fst l), zlook_snoc. congruence.
  - assert (k < zlen l). { apply zlook_Some_lt in Hk as H. rewrite zlen_app in H. change (zlen [ip]) with 1 in H. destruct (decide (k = zlen l)) as [->|]; [rewrite zlook_snoc in Hk; injection Hk as ->; done|lia]. }
    apply IH; [intros; apply Hin; set_solver|rewrite zlook_app_l in Hk by done; done|]. intros k' Hk' Hx. apply (Hlast k' Hk'). rewrite fmap_app, zlook_app_l; [done|]. apply zlook_Some_lt in Hx. lia.
Qed.
Lemma zip_look {A B} (l : list A) (k : list B) i a b : l @ i = Some a -> k @ i = Some b -> zip l k @ i = Some (a, b).
Proof.
  unfold zlook. destruct (i <? 0); [done|]. intros H1 H2. rewrite lookup_zip_with, H1. simpl. rewrite H2. done.
Qed.
Lemma zip_elem {A B} (l : list A) (k : list B) x : x ∈ zip l k -> x.1 ∈ l.
Proof. intros H. destruct x as [a b]. by apply elem_of_zip_l in H. Qed.
Lemma upd_replaced {A} (old : list (list A)) ids news : zlen ids = zlen news -> (forall i, i ∈ ids -> 0 <= i < zlen old) ->
  packs_replaced old ids news (upd old (zip ids news)).
Proof.
  intros Hl Hin. assert (Hfst : (zip ids news).*1 = ids) by (apply fst_zip; unfold zlen in Hl; lia).
  assert (Hin' : forall ip, ip ∈ zip ids news -> 0 <= ip.1 < zlen old) by (intros ip H; apply Hin; by eapply zip_elem).
  split; [apply upd_len|]. split.
  - intros i k p Hk Hlast Hp. apply (upd_in _ _ i k p Hin'); [by apply zip_look|]. rewrite Hfst. done.
  - intros i Hi. apply upd_out; [done|]. rewrite Hfst. done.
Qed.
Lemma replaced_unique {A} (old : list (list A)) ids news res res' : zlen ids = zlen news ->
  packs_replaced old ids news res -> packs_replaced old ids news res' -> res = res'.
Proof.
  intros Hl (H1 & H2 & H3) (H1' & H2' & H3'). apply zlook_ext. intros i. destruct (decide (i ∈ ids)) as [Hi|Hi]; [|rewrite H3, H3' by done; done].
  destruct (last_pos_exists ids i Hi) as (k & Hk & Hlast). apply zlook_Some_lt in Hk as Hk2. destruct (zlook_lt news k) as [p Hp]; [lia|].
  rewrite (H2 i k p), (H2' i k p) by done. done.
Qed.

(** Sizes: replacing packs of distinct ids changes the total size by the sum of the differences. *)
Definition olen {A} (old : list (list A)) (i : Z) : Z := default 0 (zlen <$> old @ i).
Lemma zsum_zset l i x y : l @ i = Some x -> zsum (zset l i y) = zsum l + (y - x).
Proof.
  intros H. apply zlook_Some_lt in H as Hl. assert (E : l = take (Z.to_nat i) l ++ x :: drop (Datatypes.S (Z.to_nat i)) l).
  { rewrite take_drop_middle; [done|]. rewrite <- H. unfold zlook. replace (i <? 0) with false by lia. done. }
  unfold zset. rewrite insert_take_drop by (unfold zlen in Hl; lia). rewrite E at 3. rewrite !zsum_app. change (zsum (y :: ?r)) with (y + zsum r).
  change (zsum (x :: ?r)) with (x + zsum r). set (t := zsum (take _ _)). set (u := zsum (drop _ _)).
  change (zsum (y :: drop (S (Z.to_nat i)) l)) with (y + u). change (zsum (x :: drop (S (Z.to_nat i)) l)) with (x + u). lia.
Qed.
Lemma fmap_zset {A B} (f : A -> B) l i x : f <$> zset l i x = zset (f <$> l) i (f x).
Proof. unfold zset. apply list_fmap_insert. Qed.
Lemma upd_size {A} (old : list (list A)) l : (forall ip, ip ∈ l -> 0 <= ip.1 < zlen old) -> NoDup l.*1 ->
  zsum (zlen <$> upd old l) = zsum (zlen <$> old) + zsum ((fun ip => zlen ip.2 - olen old ip.1) <$> l).
Proof.
  induction l as [|ip l IH] using rev_ind; intros Hin Hnd; [change (zsum _ + zsum ([] : list Z)) with (zsum (zlen <$> old) + 0); rewrite Z.add_0_r; done|].
  rewrite upd_snoc, fmap_zset. rewrite fmap_app in Hnd. apply NoDup_app in Hnd as (Hnd & Hni & _).
  assert (Hip : 0 <= ip.1 < zlen old) by (apply Hin; set_solver). destruct (zlook_lt old ip.1 Hip) as [p Hp].
  rewrite (zsum_zset _ _ (zlen p)).
  - rewrite IH; [|intros; apply Hin; set_solver|done]. rewrite fmap_snoc, zsum_snoc. assert (Ho : olen old ip.1 = zlen p) by (unfold olen; rewrite Hp; done). rewrite Ho. lia.
  - rewrite zlook_fmap, upd_out, Hp; [done|intros; apply Hin; set_solver|]. intros Hx. apply (Hni _ Hx). simpl. left.
Qed.

(** One turn of the copy loops. *)
Definition sst {A} (n m : Z) (ps : list (list A)) := (ost m ps, zlen (concat ps), iost n (zlen <$> ps)).
Definition turn {A} (vals : list A) (offs : list Z) (i ii : Z) (o : list (option A)) (p : Z) (io : list (option Z)) : res (list (option A) * Z * list (option Z)) :=
  let* a := rd offs i in let* b := rd offs (i + 1) in
  let* o := copyc vals a b o p in
  let* prev := rdc io ii in
  let* io := wrc io (ii + 1) (prev + (b - a)) in
  Ok (o, p + (b - a), io).
Lemma turn_ok {A} (vals : list A) offs i n m pre p post : pack vals offs i p -> m = zlen (concat (pre ++ p :: post)) -> n = zlen (pre ++ p :: post) ->
  turn vals offs i (zlen pre) (ost m pre) (zlen (concat pre)) (iost n (zlen <$> pre)) = Ok (sst n m (pre ++ [p])).
Proof.
  intros (a & b & Ha & Hb & H0 & Hab & Hbv & ->) -> ->. unfold turn, sst. rewrite (rd_ok _ _ _ Ha), (rd_ok _ _ _ Hb). cbn [bind].
  rewrite zlen_pre, zlen_sub by lia. pose proof (zlen_nonneg (concat post)). pose proof (zlen_nonneg post). rewrite ost_copy by lia. cbn [bind].
  set (n := zlen (pre ++ _)). assert (zlen pre < n) by (unfold n; rewrite zlen_app, zlen_cons; lia).
  pose proof (iost_rd n (zlen <$> pre)) as Hr. rewrite zlen_fmap in Hr. rewrite Hr. cbn [bind]. rewrite (iost_wr _ _ (b - a)) by (rewrite ?zlen_fmap; lia). cbn [bind].
  rewrite fmap_snoc, concat_snoc, zlen_app, zlen_sub by lia. done.
Qed.

Section setpart.
  Context {A : Type} (old : list (list A)) (arr : list A) (idx : list Z) (src : list A) (srcIdx : list Z) (ids : list Z) (news : list (list A)).
  Context (Hsky : skyline old arr idx) (Hsrc : forall k p, news @ k = Some p -> pack src srcIdx k p) (Hlen : zlen ids = zlen news)
          (Hin : forall i, i ∈ ids -> 0 <= i < zlen old).
  Notation nb := (zlen old).
  Local Lemma idxlen : zlen idx - 1 = nb.
  Proof. destruct Hsky as [_ [H _]]. rewrite zlen_fmap in H. lia. Qed.
  Notation l := (zip ids news).
  Local Lemma zlen_l : zlen l = zlen ids.
  Proof. unfold zlen. rewrite zip_with_length. unfold zlen in Hlen. lia. Qed.
  Local Lemma l_fst : l.*1 = ids.
  Proof. apply fst_zip. unfold zlen in Hlen. lia. Qed.
  Local Lemma l_in ip : ip ∈ l -> 0 <= ip.1 < nb.
  Proof. intros H. apply Hin. by eapply zip_elem. Qed.
  Local Lemma l_look k i p : l @ k = Some (i, p) -> ids @ k = Some i /\ news @ k = Some p.
  Proof.
    unfold zlook. destruct (k <? 0); [done|]. rewrite lookup_zip_with. intros H. destruct (ids !! Z.to_nat k); [|done]. simpl in H.
    destruct (news !! Z.to_nat k); [|done]. simpl in H. injection H as -> ->. done.
  Qed.
  Local Lemma old_pack i : 0 <= i < nb -> exists p, old @ i = Some p /\ pack arr idx i p.
  Proof. intros H. destruct (zlook_lt old i H) as [p Hp]. exists p. split; [done|]. by eapply sky_pack. Qed.
  (** The reads of the first loop. *)
  Local Lemma reads k i p : l @ k = Some (i, p) -> exists s0 s1 a b, srcIdx @ k = Some s0 /\ srcIdx @ (k + 1) = Some s1 /\ idx @ i = Some a /\ idx @ (i + 1) = Some b /\
    (0 <=? i) && (i <? zlen idx - 1) = true /\ (s1 - s0) - (b - a) = zlen p - olen old i /\ 0 <= s0 /\ s0 <= s1 /\ s1 <= zlen src /\ p = sub src s0 s1 /\ 0 <= a /\ a <= b /\ b <= zlen arr.
  Proof.
    intros Hk. destruct (l_look _ _ _ Hk) as [Hi Hp]. destruct (Hsrc _ _ Hp) as (s0 & s1 & H0 & H1 & H2 & H3 & H4 & ->).
    assert (Hib : 0 <= i < nb) by (apply Hin; by eapply zlook_elem). destruct (old_pack i Hib) as (q & Hq & a & b & Ha & Hb & H5 & H6 & H7 & ->).
    exists s0, s1, a, b. do 4 (split; [done|]). split; [rewrite idxlen; lia|]. split; [|done]. rewrite zlen_sub by lia. unfold olen. rewrite Hq. simpl. rewrite zlen_sub by lia. lia.
  Qed.
  Local Lemma post_step k (pre : list (Z * list A)) ip post : l = pre ++ ip :: post -> k = zlen pre -> l @ k = Some ip.
  Proof. intros -> ->. rewrite zlook_app_r by lia. rewrite Z.sub_diag. done. Qed.
  Notation new := (upd old l).
  Local Lemma new_size : NoDup ids -> zlen (concat new) = zlen arr + zsum ((fun ip => zlen ip.2 - olen old ip.1) <$> l).
  Proof. intros Hnd. rewrite zsum_pre, (upd_size old l l_in) by (rewrite l_fst; done). rewrite (proj1 Hsky), zsum_pre. done. Qed.
  Local Lemma new_old pre p post : new = pre ++ p :: post -> zlen pre ∉ ids -> pack arr idx (zlen pre) p.
  Proof.
    intros E Hn. eapply sky_pack; [done|]. rewrite <- (upd_out old l); [|apply l_in|by rewrite l_fst]. rewrite E. rewrite zlook_app_r by lia. rewrite Z.sub_diag. done.
  Qed.
  Local Lemma new_new pre p post k : NoDup ids -> new = pre ++ p :: post -> ids @ k = Some (zlen pre) -> pack src srcIdx k p.
  Proof.
    intros Hnd E Hk. apply zlook_Some_lt in Hk as Hk2. destruct (zlook_lt news k) as [q Hq]; [lia|]. apply Hsrc. rewrite Hq. f_equal.
    enough (Some q = Some p) by congruence. rewrite <- (upd_in old l (zlen pre) k q); [|apply l_in|by apply zip_look|].
    - rewrite E, zlook_app_r by lia. rewrite Z.sub_diag. done.
    - intros k' Hk' Hx. rewrite l_fst in Hx. pose proof (proj1 (NoDup_zlook ids) Hnd k k' _ Hk Hx). lia.
  Qed.

  Lemma setpart_ok : NoDup ids -> SetPartOfIndexedArrays ids arr idx src srcIdx = Ok (Some <$> concat new, Some <$> psums (zlen <$> new)).
  Proof.
    intros Hnd. unfold SetPartOfIndexedArrays. pose proof (zlen_nonneg old). rewrite !idxlen. replace (nb <? 0) with false by lia. cbn [ifthrow].
    pose (vst := fun pre : list (Z * list A) => foldl (fun v ip => zset v ip.1 false) (replicate (Z.to_nat nb) true) pre).
    assert (Hvs : forall pre ip, vst (pre ++ [ip]) = zset (vst pre) ip.1 false) by (intros; unfold vst; by rewrite foldl_app).
    assert (Hvl : forall pre, zlen (vst pre) = nb).
    { intros pre. induction pre as [|ip pre IH] using rev_ind; [unfold vst; simpl; unfold zlen; rewrite replicate_length; unfold zlen; lia|]. rewrite Hvs, zlen_zset. done. }
    assert (Hv : forall pre i, (forall ip, ip ∈ pre -> 0 <= ip.1 < nb) -> 0 <= i < nb -> vst pre @ i = Some (bool_decide (i ∉ pre.*1))).
    { intros pre i. induction pre as [|ip pre IH] using rev_ind; intros Hp Hi; [unfold vst; simpl; rewrite zlook_replicate by lia; done|].
      rewrite Hvs. rewrite zlook_zset by (rewrite Hvl; apply Hp; set_solver). rewrite fmap_app. destruct (Z.eqb_spec i ip.1) as [->|Hne].
      - rewrite bool_decide_eq_false_2; [done|]. intros Hx. apply Hx. apply elem_of_app. right. simpl. left.
      - rewrite IH; [|intros; apply Hp; set_solver|done]. f_equal. apply bool_decide_ext. rewrite not_elem_of_app. simpl. rewrite not_elem_of_cons. pose proof (not_elem_of_nil i). naive_solver. }
    set (dl := fun ip : Z * list A => zlen ip.2 - olen old ip.1).
    pose (st := fun pre : list (Z * list A) => (vst pre, zsum (dl <$> pre), zlen pre)).
    change (replicate (Z.to_nat nb) true, 0, 0) with (st []).
    rewrite (foldM_blocks _ (fun x (ip : Z * list A) => x = ip.1) st ids l).
    2: { apply Forall2_same_length_lookup_2; [rewrite zip_with_length; unfold zlen in Hlen; lia|]. intros i x ip Hx Hip. rewrite lookup_zip_with, Hx in Hip. simpl in Hip.
         destruct (news !! i); [|done]. simpl in Hip. injection Hip as <-. done. }
    2: { intros pre x [i p] post E ->. simpl. destruct (reads (zlen pre) i p) as (s0 & s1 & a & b & H0 & H1 & Ha & Hb & Hc & Hd & _); [by eapply post_step|].
         rewrite idxlen in Hc. rewrite Hc. unfold wr. rewrite Hvl. replace ((0 <=? i) && (i <? nb)) with true. cbn [bind].
         rewrite (rd_ok _ _ _ H1), (rd_ok _ _ _ H0), (rd_ok _ _ _ Hb), (rd_ok _ _ _ Ha). cbn [bind]. unfold st. rewrite Hvs, fmap_snoc, zsum_snoc, zlen_app. change (zlen [(i, p)]) with 1. unfold dl at 3. simpl fst. simpl snd. rewrite Hd. done. }
    cbn [bind]. unfold st. rewrite alloc1 by lia. cbn [bind]. unfold dl. rewrite <- new_size by done. rewrite alloc1 by apply zlen_nonneg. cbn [bind]. rewrite iost_start by done. cbn [bind].
    set (m := zlen (concat new)). rewrite ost_start. change (ost m [], 0, iost nb []) with (sst nb m (@nil (list A))).
    rewrite (forZ_blocks _ (sst nb m) nb new); [|apply upd_len|].
    { cbn [bind]. unfold sst. rewrite ost_end by done. rewrite <- (upd_len old l). rewrite <- (zlen_fmap zlen new). rewrite iost_end. done. }
    intros pre p post E. assert (Hpre : 0 <= zlen pre < nb). { pose proof (upd_len old l) as Hu. rewrite E, zlen_app, zlen_cons in Hu. pose proof (zlen_nonneg pre). pose proof (zlen_nonneg post). lia. }
    unfold sst at 1. pose proof (Hv l (zlen pre) l_in Hpre) as Hkeep. rewrite l_fst in Hkeep. rewrite (rd_ok _ _ _ Hkeep). cbn [bind]. case_bool_decide as Hd.
    - apply (turn_ok arr idx (zlen pre) nb m pre p post); [by eapply new_old|unfold m; by rewrite E|]. rewrite <- E, upd_len. done.
    - assert (Hel : zlen pre ∈ ids) by (destruct (decide (zlen pre ∈ ids)); tauto). destruct (find_if_spec (fun x => x =? zlen pre) ids) as (Hf1 & Hf2 & Hf3).
      assert (Hpos : ids @ find_if (fun x => x =? zlen pre) ids = Some (zlen pre)).
      { destruct (decide (find_if (fun x => x =? zlen pre) ids < zlen ids)) as [Hlt|Hge]; [destruct (Hf3 Hlt) as (v & Hv' & Heq); assert (v = zlen pre) as -> by lia; done|].
        exfalso. apply elem_of_zlook in Hel as [k Hk]. apply zlook_Some_lt in Hk as Hk2. specialize (Hf2 k _ ltac:(lia) Hk). simpl in Hf2. lia. }
      apply (turn_ok src srcIdx _ nb m pre p post); [by eapply new_new|unfold m; by rewrite E|]. rewrite <- E, upd_len. done.
  Qed.

  Lemma setpart_slice_ok start stop step : valid_range start stop step -> is_range_list start stop step ids ->
    SetPartOfIndexedArraysSlice start stop step arr idx src srcIdx = Ok (Some <$> concat new, Some <$> psums (zlen <$> new)).
  Proof.
    intros Hvr Hr. assert (Hnd : NoDup ids).
    { apply NoDup_zlook. intros i j x H1 H2. apply Hr in H1 as (_ & E1 & _). apply Hr in H2 as (_ & E2 & _). destruct Hvr as [Hs _]. nia. }
    unfold SetPartOfIndexedArraysSlice. pose proof (zlen_nonneg old). rewrite !idxlen. rewrite (count_is_len _ _ _ _ Hvr Hr). cbn [bind].
    set (dl := fun ip : Z * list A => zlen ip.2 - olen old ip.1).
    pose (st := fun pre : list (Z * list A) => (zsum (dl <$> pre), start + zlen pre * step)).
    replace (0, start) with (st []) by (unfold st; change (zlen (@nil (Z * list A))) with 0; rewrite Z.mul_0_l, Z.add_0_r; done).
    rewrite (forZ_blocks _ st (zlen ids) l); [|apply zlen_l|].
    2: { intros pre [i p] post E. assert (Hlk : l @ zlen pre = Some (i, p)) by (by eapply post_step). destruct (reads (zlen pre) i p Hlk) as (s0 & s1 & a & b & H0 & H1 & Ha & Hb & Hc & Hd & _).
         destruct (l_look _ _ _ Hlk) as [Hi _]. apply Hr in Hi as (_ & Hi & _). unfold st at 1. rewrite <- Hi. rewrite idxlen in Hc. rewrite Hc.
         rewrite (rd_ok _ _ _ H1), (rd_ok _ _ _ H0), (rd_ok _ _ _ Hb), (rd_ok _ _ _ Ha). cbn [bind]. unfold st. rewrite fmap_snoc, zsum_snoc, zlen_app. change (zlen [(i, p)]) with 1.
         unfold dl at 3. simpl fst. simpl snd. rewrite Hd. do 2 f_equal. lia. }
    cbn [bind]. unfold st. rewrite alloc1 by lia. cbn [bind]. unfold dl. rewrite <- new_size by done. rewrite alloc1 by apply zlen_nonneg. cbn [bind]. rewrite iost_start by done. cbn [bind].
    set (m := zlen (concat new)). rewrite ost_start. change (ost m [], 0, iost nb []) with (sst nb m (@nil (list A))).
    rewrite (forZ_blocks _ (sst nb m) nb new); [|apply upd_len|].
    { cbn [bind]. unfold sst. rewrite ost_end by done. rewrite <- (upd_len old l). rewrite <- (zlen_fmap zlen new). rewrite iost_end. done. }
    intros pre p post E. assert (Hpre : 0 <= zlen pre < nb). { pose proof (upd_len old l) as Hu. rewrite E, zlen_app, zlen_cons in Hu. pose proof (zlen_nonneg pre). pose proof (zlen_nonneg post). lia. }
    unfold sst at 1. destruct (pos_correct (zlen pre) start stop step ids Hr) as [Hp|[Hp Hni]].
    - replace (GetPosOfItemGivenBESRelativeNoThrow (zlen pre) start stop step <? 0) with false by (apply zlook_Some_lt in Hp; lia).
      apply (turn_ok src srcIdx _ nb m pre p post); [by eapply new_new|unfold m; by rewrite E|]. rewrite <- E, upd_len. done.
    - rewrite Hp. change (-1 <? 0) with true. cbv iota.
      apply (turn_ok arr idx (zlen pre) nb m pre p post); [by eapply new_old|unfold m; by rewrite E|]. rewrite <- E, upd_len. done.
  Qed.
End setpart.
