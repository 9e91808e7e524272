From Verif Require Import Base DataArray ArrLib SlicesSpec SlicesModel SlicesProofs RenumSpec RenumModel RenumProofs SearchSpec StdModel StdProofs SearchProofs IndexSpec IndexModel FillLib IndexProofs IndexProofs2 IndexProofs3 IndexProofs4 IndexProofs5 LayoutModel SkyModel SkySpec SkyProofs SkyProofs2 SkyProofs3 SkyProofs4.
From Coq Require Import ZifyBool ZifyNat.

(** * groupPacks. *)
Lemma idx_at ps s k : sky2 ps s -> 0 <= k <= zlen ps -> exists o, s_index s @ k = Some (o + zlen (concat (take (Z.to_nat k) ps))) /\
  forall pre post, s_values s = pre ++ concat ps ++ post -> s_index s = offs (zlen pre) (zlen <$> ps) -> o = zlen pre.
Proof.
  intros (x & y & Hv & Hi) Hk. exists (zlen x). split.
  - rewrite Hi. rewrite <- (take_drop (Z.to_nat k) ps) at 1. rewrite (fmap_app zlen (take (Z.to_nat k) ps)), offs_app.
    assert (zlen (heads (zlen x) (zlen <$> take (Z.to_nat k) ps)) = k) as Hh by (rewrite heads_len, zlen_fmap, zlen_take; lia).
    rewrite zlook_app_r by lia. rewrite Hh, Z.sub_diag, offs_hd, zlen_concat. done.
  - intros pre post _ Hi'. assert (s_index s @ 0 = Some (zlen x)) as H1 by (rewrite Hi; apply offs_hd). rewrite Hi', offs_hd in H1. congruence.
Qed.
Lemma concat_cut (ps : list (list Z)) a b : 0 <= a -> a <= b -> b <= zlen ps ->
  concat (take (Z.to_nat b) ps) = concat (take (Z.to_nat a) ps) ++ concat (sub ps a b).
Proof.
  intros. rewrite <- concat_app. f_equal. unfold sub. rewrite <- (take_drop (Z.to_nat a) (take (Z.to_nat b) ps)) at 1. rewrite take_take. rewrite Nat.min_l by lia.
  f_equal. rewrite take_drop_commute. f_equal. f_equal. lia.
Qed.
Lemma nondecreasing_tail a l : nondecreasing (a :: l) -> nondecreasing l.
Proof.
  intros H i j x y Hij Hi Hj. pose proof (zlook_Some_lt _ _ _ Hi). pose proof (zlook_Some_lt _ _ _ Hj). apply (H (i + 1) (j + 1)); [lia|..].
  - rewrite zlook_cons. replace (i + 1 =? 0) with false by lia. by replace (i + 1 - 1) with i by lia.
  - rewrite zlook_cons. replace (j + 1 =? 0) with false by lia. by replace (j + 1 - 1) with j by lia.
Qed.
Lemma grouped_offs (ps : list (list Z)) o ids a : nondecreasing (a :: ids) -> (forall k, k ∈ a :: ids -> 0 <= k <= zlen ps) ->
  exists after, concat (drop (Z.to_nat a) ps) = concat (grouped (a :: ids) ps) ++ after /\
    (fun k => o + zlen (concat (take (Z.to_nat k) ps))) <$> (a :: ids) = offs (o + zlen (concat (take (Z.to_nat a) ps))) (zlen <$> grouped (a :: ids) ps).
Proof.
  revert a. induction ids as [|b ids IH]; intros a Hn Hin.
  - exists (concat (drop (Z.to_nat a) ps)). done.
  - assert (a <= b) as Hab by (apply (Hn 0 1); done). assert (0 <= a) by (apply Hin; set_solver). assert (b <= zlen ps) by (apply Hin; set_solver).
    destruct (IH b (nondecreasing_tail _ _ Hn)) as (after & Hc & Ho); [intros; apply Hin; set_solver|]. exists after.
    change (grouped (a :: b :: ids) ps) with (concat (sub ps a b) :: grouped (b :: ids) ps).
    change (concat (concat (sub ps a b) :: grouped (b :: ids) ps)) with (concat (sub ps a b) ++ concat (grouped (b :: ids) ps)). split.
    + rewrite <- app_assoc, <- Hc. rewrite <- concat_app. f_equal. unfold sub. rewrite <- (take_drop (Z.to_nat (b - a)) (drop (Z.to_nat a) ps)) at 1. f_equal.
      rewrite drop_drop. f_equal. lia.
    + rewrite fmap_cons, Ho. rewrite (fmap_cons zlen), offs_cons. do 2 f_equal. rewrite (concat_cut ps a b) by lia. rewrite zlen_app. lia.
Qed.
Lemma group_ok ps s ids : sky2 ps s -> ids <> [] -> nondecreasing ids -> (forall k, k ∈ ids -> 0 <= k <= zlen ps) ->
  exists s', groupPacks s (vec ids) = Ok s' /\ sky2 (grouped ids ps) s'.
Proof.
  intros Hs Hne Hn Hin. pose proof (len2 _ _ Hs) as Hl. pose proof (zlen_nonneg ps). unfold groupPacks, checkAllocated. cbn [negb vec da_alloc ifthrow da_nc].
  change (1 =? 1) with true. cbn [negb ifthrow]. rewrite da_nt_vec. replace (zlen ids =? 0) with false by (destruct ids; [done|]; rewrite zlen_cons; pose proof (zlen_nonneg ids); lia).
  cbn [ifthrow]. change (da_vals (vec ids)) with ids. assert (da_wf (vec (s_index s))) as Hwf.
  { split; [done|]. exists (zlen (s_index s)). split; [apply zlen_nonneg|]. cbn. lia. }
  assert (forall v, v ∈ ids -> 0 <= v < da_nt (vec (s_index s))) as Hr by (intros v Hv; specialize (Hin v Hv); rewrite da_nt_vec; lia).
  rewrite selectSafe_same by (done || (intros (v & Hv & Hx); apply Hx, Hr, Hv)). destruct (select_ok (vec (s_index s)) ids eq_refl Hwf Hr) as (l & -> & Hll & Hij).
  cbn [bind da_vals]. rewrite initialised_ok. cbn [bind]. eexists. split; [done|].
  destruct Hs as (pre & post & Hv & Hi).
  destruct ids as [|a ids]; [done|]. destruct (grouped_offs ps (zlen pre) ids a Hn Hin) as (after & Hc & Ho).
  exists (pre ++ concat (take (Z.to_nat a) ps)), (after ++ post). cbn [s_values s_index]. split.
  - rewrite Hv. rewrite <- (take_drop (Z.to_nat a) ps) at 1. rewrite concat_app, Hc. by rewrite <- !app_assoc.
  - rewrite zlen_app, <- Ho. cbn [vec da_nc] in *. apply zlook_ext_lt; [rewrite zlen_fmap; lia|]. intros i Hi'.
    destruct (zlook_lt (a :: ids) i) as [t Ht]; [lia|]. specialize (Hij i t Ht 0). unfold ij in Hij. cbn [da_nc da_vals vec] in Hij.
    assert (0 <= t <= zlen ps) as Htr by (apply Hin; by eapply elem_of_zlook_1).
    replace (0 <=? t) with true in Hij by lia. replace (0 <=? i) with true in Hij by lia. cbn [andb Z.leb Z.ltb Z.compare] in Hij.
    rewrite !Z.mul_1_r, !Z.add_0_r in Hij. rewrite Hij. rewrite zlook_fmap, Ht. simpl.
    destruct (idx_at ps s t) as (o & Hot & Hoe); [exists pre, post; done|done|]. rewrite Hot, (Hoe pre post Hv Hi). done.
Qed.

Lemma group_throw ps s ids : sky2 ps s -> ids = [] \/ (exists k, k ∈ ids /\ ~ 0 <= k <= zlen ps) -> groupPacks s (vec ids) = Throw.
Proof.
  intros Hs H. pose proof (len2 _ _ Hs) as Hl. unfold groupPacks, checkAllocated. cbn [negb vec da_alloc ifthrow da_nc].
  change (1 =? 1) with true. cbn [negb ifthrow]. rewrite da_nt_vec. destruct (zlen ids =? 0) eqn:E; [done|]. cbn [ifthrow]. destruct H as [->|(k & Hk & Hr)]; [done|].
  change (da_vals (vec ids)) with ids. assert (da_wf (vec (s_index s))) as Hwf by (split; [done|]; exists (zlen (s_index s)); split; [apply zlen_nonneg|]; cbn; lia).
  rewrite (proj2 (selectSafe_throw (vec (s_index s)) ids eq_refl Hwf)); [done|].
  exists k. split; [done|]. rewrite da_nt_vec. lia.
Qed.

(** * uniqueNotSortedByPack. *)
Lemma unique_ok ps s : sky2 ps s -> exists s', uniqueNotSortedByPack s = Ok s' /\ sky2 (set_of <$> ps) s'.
Proof.
  intros Hs. pose proof (len2 _ _ Hs) as Hl. pose proof (zlen_nonneg ps). unfold uniqueNotSortedByPack.
  replace (zlen (s_index s) - 1) with (zlen ps) by lia. rewrite alloc1 by lia. cbn [bind]. rewrite iost_start by lia. cbn [bind].
  assert (forall pre b post, ps = pre ++ b :: post -> (let* b := rd (s_index s) (zlen pre + 1) in let* a := rd (s_index s) (zlen pre) in let* p := saveBlock (s_values s) a b in Ok (set_of p)) = Ok (set_of b)) as Hp.
  { intros pre b post ->. destruct (sky2_at _ _ _ _ Hs) as (x & y & H' & Hv & _ & Hi & H0 & H1 & _). rewrite (rd_ok _ _ _ H1), (rd_ok _ _ _ H0). cbn [bind].
    rewrite Hv, save_mid by done. done. }
  pose (st := fun pre : list (list Z) => iost (zlen ps) (zlen <$> (set_of <$> pre))). change (iost (zlen ps) []) with (st []).
  rewrite (forZ_blocks _ st (zlen ps) ps eq_refl).
  2: { intros pre b post E. rewrite (Hp _ _ _ E). cbn [bind]. unfold st. assert (zlen pre < zlen ps) by (rewrite E, zlen_app, zlen_cons; pose proof (zlen_nonneg post); lia).
    pose proof (iost_rd (zlen ps) (zlen <$> (set_of <$> pre))) as Hrd. rewrite !zlen_fmap in Hrd. rewrite Hrd. cbn [bind].
    rewrite (iost_wr _ _ (zlen (set_of b))) by (rewrite ?zlen_fmap; lia). rewrite !fmap_snoc. done. }
  cbn [bind]. unfold st. pose proof (iost_rd (zlen ps) (zlen <$> (set_of <$> ps))) as Hrd. rewrite !zlen_fmap in Hrd. rewrite Hrd. cbn [bind]. rewrite <- zlen_concat.
  rewrite alloc1 by apply zlen_nonneg. cbn [bind]. rewrite ost_start. set (m := zlen (concat (set_of <$> ps))).
  pose (st2 := fun pre : list (list Z) => (ost m (set_of <$> pre), zlen (concat (set_of <$> pre)))). change (ost m [], 0) with (st2 []).
  rewrite (forZ_blocks _ st2 (zlen ps) ps eq_refl).
  2: { intros pre b post E. rewrite (Hp _ _ _ E). cbn [bind]. unfold st2. pose proof (zlen_pre (set_of <$> pre) (set_of b) (set_of <$> post)) as Hz.
    rewrite <- fmap_cons, <- fmap_app, <- E in Hz. fold m in Hz. pose proof (zlen_nonneg (concat (set_of <$> post))). pose proof (zlen_nonneg (set_of b)).
    rewrite ost_copy by lia. cbn [bind]. rewrite sub_full, fmap_snoc, concat_snoc, zlen_app. done. }
  unfold st2. cbn [bind]. rewrite ost_end by done. replace (zlen ps) with (zlen (zlen <$> (set_of <$> ps))) by (by rewrite !zlen_fmap). rewrite iost_end, !initialised_ok. cbn [bind].
  eexists. split; [done|]. apply sky2_psums.
Qed.

(** * findPackIds. *)
Lemma find_one A qs B s pack : sky3 (A ++ qs :: B) s -> exists a b, s_super s @ zlen A = Some a /\ s_super s @ (zlen A + 1) = Some b /\
  exists r, foldM (fun r idx => if (r : Z) =? -1 then
        let* e := rd (s_index s) (idx + 1) in let* f := rd (s_index s) idx in
        if zlen pack =? e - f then
          let* p := saveBlock (s_values s) f e in
          Ok (if bool_decide (p = pack) then idx - a else r)
        else Ok r
      else Ok r) (seqZ a (b - a)) (-1) = Ok r /\ first_or_none qs pack r.
Proof.
  intros Hs3. destruct (sky3_at _ _ _ _ Hs3) as (X & Y & H' & Hs & HH & Hsu & S0 & S1 & Sn & Hm3). exists (zlen X), (zlen X + zlen qs). split; [done|]. split; [done|].
  replace (zlen X + zlen qs - zlen X) with (zlen qs) by lia.
  match goal with |- exists r, ?prog = _ /\ _ => enough (Hw : wp prog (first_or_none qs pack) False) end.
  { apply wp_ok in Hw as (r & Hr & ?). exists r. done. }
  apply (wp_foldM _ (fun pre r => first_or_none (take (length pre) qs) pack r)).
  - left. split; [done|]. simpl. set_solver.
  - intros pre x post r E Hr.
    assert (seqZ (zlen X) (zlen qs) @ zlen pre = Some x) as Hx by (rewrite E, zlook_app_r by lia; by rewrite Z.sub_diag).
    assert (zlen pre < zlen qs) as Hlt. { apply zlook_Some_lt in Hx. rewrite zlen_seqZ in Hx. pose proof (zlen_nonneg qs). lia. }
    pose proof (zlen_nonneg pre). rewrite zlook_seqZ in Hx by lia. injection Hx as <-.
    destruct (zlook_lt qs (zlen pre)) as [p Hp]; [lia|]. pose proof (list_split _ _ _ Hp) as Hq.
    set (l := take (Z.to_nat (zlen pre)) qs) in *. set (t := drop (Datatypes.S (Z.to_nat (zlen pre))) qs) in *.
    assert (zlen l = zlen pre) as Hll by (unfold l; rewrite zlen_take; lia).
    assert (take (length pre) qs = l) as Htl by (unfold l, zlen; by rewrite Nat2Z.id). rewrite Htl in Hr.
    assert (take (length (pre ++ [zlen X + zlen pre])) qs = l ++ [p]) as ->.
    { rewrite app_length. simpl. rewrite Hq. replace (length pre + 1)%nat with (length (l ++ [p])) by (rewrite app_length; simpl; unfold zlen in Hll; lia).
      change (l ++ p :: t) with (l ++ [p] ++ t). rewrite app_assoc. apply take_app. }
    rewrite Hq in Hs. assert (sky2 ((X ++ l) ++ p :: (t ++ Y)) s) as Hs2 by (revert Hs; rewrite <- !app_assoc; done).
    destruct (sky2_at _ _ _ _ Hs2) as (x & y & H2 & Hv & _ & Hi & H0 & H1 & _). rewrite zlen_app, Hll in H0, H1.
    destruct (r =? -1) eqn:Er.
    + assert (r = -1) as -> by lia. rewrite (rd_ok _ _ _ H1), (rd_ok _ _ _ H0). cbn [bind].
      assert (pack ∉ l) as Hn. { destruct Hr as [[_ Hr]|[Hr _]]; [done|]. apply zlook_Some_lt in Hr. lia. }
      destruct (decide (p = pack)) as [->|Hne].
      * replace (_ =? _) with true by lia. rewrite Hv, save_mid by done. cbn [bind]. rewrite bool_decide_true by done. simpl. right. split.
        -- rewrite zlook_app_r by lia. by replace (_ - _) with 0 by lia.
        -- intros j Hj Hx. destruct (decide (0 <= j)); [|rewrite zlook_neg in Hx by lia; done]. rewrite zlook_app_l in Hx by lia. apply Hn. by eapply elem_of_zlook_1.
      * assert (first_or_none (l ++ [p]) pack (-1)) as Hfo by (left; split; [done|]; set_solver). destruct (zlen pack =? _); [|exact Hfo].
        rewrite Hv, save_mid by done. cbn [bind]. rewrite bool_decide_false by done. exact Hfo.
    + simpl. destruct Hr as [[-> _]|[Hr Hf]]; [lia|]. right. pose proof (zlook_Some_lt _ _ _ Hr). split.
      * rewrite zlook_app_l by lia. done.
      * intros j Hj. destruct (decide (0 <= j)); [|rewrite zlook_neg by lia; done]. rewrite zlook_app_l by lia. by apply Hf.
  - intros r Hr. rewrite take_ge in Hr; [done|]. rewrite seqZ_length. unfold zlen. lia.
Qed.
Lemma find_ok pss s ids pack : sky3 pss s -> pack <> [] -> (forall i, i ∈ ids -> 0 <= i < zlen pss) ->
  exists r, findPackIds s ids pack = Ok r /\ Forall2 (fun i r => exists qs, pss @ i = Some qs /\ first_or_none qs pack r) ids r.
Proof.
  intros Hs Hp Hids. set (P := fun i r => exists qs, pss @ i = Some qs /\ first_or_none qs pack r).
  assert (zlen (s_super s) = zlen pss + 1) as Hsn. { destruct Hs as (ps & (pre & post & _ & ->) & _). by rewrite offs_len, zlen_fmap. }
  unfold findPackIds, checkSuperIndex. pose proof (zlen_nonneg pss). replace (_ =? 0) with false by lia. cbn [ifthrow].
  replace (zlen pack =? 0) with false by (destruct pack; [done|]; rewrite zlen_cons; pose proof (zlen_nonneg pack); lia). cbn [ifthrow].
  match goal with |- exists r, foldM ?f ids [] = _ /\ _ => set (f0 := f) end.
  assert (forall i out, i ∈ ids -> exists r, f0 out i = Ok (out ++ [r]) /\ P i r) as Hstep.
  { intros i out Hi. specialize (Hids i Hi). destruct (zlook_lt pss i Hids) as [qs Hqs]. pose proof (list_split _ _ _ Hqs) as E.
    set (A := take (Z.to_nat i) pss) in *. assert (zlen A = i) as HA by (unfold A; rewrite zlen_take; lia). rewrite E in Hs.
    destruct (find_one A qs _ s pack Hs) as (a & b & H0 & H1 & r & Hr & Hf). exists r. split; [|exists qs; done]. unfold f0. rewrite HA in *.
    rewrite (rd_ok _ _ _ H0). cbn [bind]. rewrite (rd_ok _ _ _ H1). cbn [bind]. rewrite Hr. done. }
  clearbody f0. clear Hids. assert (forall out, exists r, foldM f0 ids out = Ok (out ++ r) /\ Forall2 P ids r) as H'.
  { induction ids as [|i ids IH]; intros out; [exists []; rewrite app_nil_r; split; [done|constructor]|].
    destruct (Hstep i out) as (r & Hr & HP); [set_solver|]. cbn [foldM]. rewrite Hr. cbn [bind].
    destruct (IH ltac:(intros; apply Hstep; set_solver) (out ++ [r])) as (r' & Hr' & HP'). exists (r :: r'). rewrite Hr', <- app_assoc. split; [done|]. by constructor. }
  destruct (H' []) as (r & Hr & HP). exists r. done.
Qed.
