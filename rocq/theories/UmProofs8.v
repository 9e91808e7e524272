From Coq Require Import QArith ZifyBool ZifyNat.
From stdpp Require Import gmap.
From Verif Require Import Base DataArray ArrLib FillLib IndexModel IndexSpec IndexProofs3 CellTable UmModel UmSpec UmProofs UmProofs2 UmProofs3 UmProofs4.
Local Open Scope Z_scope.

(** * getReverseNodalConnectivity *)
(** The cells of the occurrences of node [v]. *)
Fixpoint cof (F : list (Z * Z)) (v : Z) : list Z := match F with [] => [] | p :: r => if p.2 =? v then p.1 :: cof r v else cof r v end.
Lemma cof_app F G v : cof (F ++ G) v = cof F v ++ cof G v.
Proof. induction F as [|p F IH]; [done|]. simpl. rewrite IH. destruct (p.2 =? v); done. Qed.
Lemma cof_cell k (ns : list Z) v : cof ((fun n => (k, n)) <$> ns) v = replicate (count_occ Z.eq_dec ns v) k.
Proof. induction ns as [|n ns IH]; [done|]. rewrite fmap_cons. cbn [cof snd fst count_occ]. rewrite IH. destruct (Z.eqb_spec n v), (Z.eq_dec n v); try done. Qed.
Lemma cof_occ k cells v : cof (occ k cells) v = cells_of_node k cells v.
Proof. revert k. induction cells as [|c r IH]; intros k; [done|]. cbn [occ cells_of_node]. rewrite cof_app, IH, cof_cell. done. Qed.
Lemma cof_elem F v i : i ∈ cof F v <-> (i, v) ∈ F.
Proof.
  induction F as [|[a b] F IH]; cbn [cof]. { split; intros H; inversion H. } cbn [fst snd]. rewrite elem_of_cons, <- IH. destruct (Z.eqb_spec b v) as [->|N].
  - rewrite elem_of_cons. split; intros [H|H]; auto; left; congruence.
  - split; [by right|]. intros [H|H]; [congruence|done].
Qed.

Lemma zseq lo n i : seqZ lo n @ i = if (0 <=? i) && (i <? n) then Some (lo + i) else None.
Proof. destruct ((0 <=? i) && (i <? n)) eqn:E; [apply zlook_seqZ; lia|]. destruct (decide (i < 0)); [by apply zlook_neg|]. apply zlook_None. unfold zlen. rewrite seqZ_length. lia. Qed.
Lemma zrep {A} n (x : A) i : replicate n x @ i = if (0 <=? i) && (i <? Z.of_nat n) then Some x else None.
Proof. destruct ((0 <=? i) && _) eqn:E; [apply zlook_replicate; lia|]. apply zlook_None. rewrite zlen_replicate. lia. Qed.
Lemma zsum1 l x : zsum (l ++ [x]) = zsum l + x.
Proof. unfold zsum. rewrite foldr_app. cbn [foldr]. induction l as [|a l IH]; cbn [foldr]; lia. Qed.
Section Rev.
Context (nb : Z) (F : list (Z * Z)).
Hypothesis Hnb : 0 <= nb.
Hypothesis HF : forall i v, (i, v) ∈ F -> 0 <= i /\ v < nb.
Let ps := cof F <$> seqZ 0 nb.
Let ls : list Z := zlen <$> ps.
Lemma ps_at v : 0 <= v < nb -> ps @ v = Some (cof F v).
Proof. intros Hv. unfold ps. rewrite zlook_fmap, zseq. replace ((0 <=? v) && (v <? nb)) with true by lia. simpl. rewrite ?Z.add_0_l. done. Qed.
Lemma ls_at v : 0 <= v < nb -> ls @ v = Some (zlen (cof F v)).
Proof. intros Hv. unfold ls. rewrite zlook_fmap, ps_at by done. done. Qed.
Lemma len_ls : zlen ls = nb.
Proof. unfold ls, ps. rewrite !zlen_fmap. unfold zlen. rewrite seqZ_length. lia. Qed.

(** The counts. *)
Lemma count_loop (pre : list (Z * Z)) : (forall p, p ∈ pre -> p ∈ F) ->
  exists n, foldM (fun (s : Z * list Z) (p : Z * Z) => let '(nb, rI) := s in if 0 <=? p.2 then (let* x := rd rI (p.2 + 1) in let* rI := wr rI (p.2 + 1) (x + 1) in Ok (nb + 1, rI)) else Ok (nb, rI)) pre (0, replicate (Z.to_nat (nb + 1)) 0)
    = Ok (n, 0 :: ((fun v => zlen (cof pre v)) <$> seqZ 0 nb)) /\ n = zsum ((fun v => zlen (cof pre v)) <$> seqZ 0 nb).
Proof.
  induction pre as [|p pre IH] using rev_ind; intros Hin.
  - exists 0. cbn [foldM]. split.
    + do 2 f_equal. apply zlook_ext. intros i. rewrite zrep, zlook_cons, zlook_fmap, zseq. destruct (i =? 0) eqn:E0; [replace ((0 <=? i) && _) with true by lia; done|].
      destruct ((0 <=? i) && (i <? Z.of_nat (Z.to_nat (nb + 1)))) eqn:E1; destruct ((0 <=? i - 1) && (i - 1 <? nb)) eqn:E2; try lia; done.
    + induction (seqZ 0 nb) as [|x l IHl]; [done|]. rewrite fmap_cons. unfold zsum in *. cbn [foldr]. rewrite <- IHl. done.
  - destruct IH as (n & E & En); [intros q Hq; apply Hin, elem_of_app; by left|]. rewrite foldM_app, E. cbn [bind foldM]. destruct p as [i v]. cbn [fst snd].
    assert (Hp : (i, v) ∈ F) by (apply Hin, elem_of_app; right; left). apply HF in Hp as (Hi & Hv).
    destruct (0 <=? v) eqn:E0.
    + assert (Hrd : (0 :: ((fun v => zlen (cof pre v)) <$> seqZ 0 nb)) @ (v + 1) = Some (zlen (cof pre v))).
      { rewrite zlook_cons. replace (v + 1 =? 0) with false by lia. rewrite zlook_fmap, zseq. replace ((0 <=? v + 1 - 1) && _) with true by lia. simpl. do 3 f_equal. lia. }
      rewrite (rd_ok _ _ _ Hrd). cbn [bind]. rewrite wr_ok by (rewrite zlen_cons, zlen_fmap; unfold zlen; rewrite seqZ_length; lia). cbn [bind]. exists (n + 1). split.
      * do 2 f_equal. apply zlook_ext. intros j. rewrite zlook_zset by (rewrite zlen_cons, zlen_fmap; unfold zlen; rewrite seqZ_length; lia). rewrite !zlook_cons, !zlook_fmap, !zseq.
        destruct (Z.eqb_spec j (v + 1)) as [->|Nj].
        -- replace (v + 1 =? 0) with false by lia. replace ((0 <=? v + 1 - 1) && _) with true by lia. simpl. replace (0 + (v + 1 - 1)) with v by lia. rewrite cof_app. cbn [cof snd fst]. rewrite Z.eqb_refl. rewrite zlen_app. done.
        -- destruct (j =? 0) eqn:Ej; [done|]. destruct ((0 <=? j - 1) && (j - 1 <? nb)) eqn:E2; [|done]. simpl. rewrite cof_app. cbn [cof snd fst]. replace (v =? 0 + (j - 1)) with false by lia. rewrite app_nil_r. done.
      * rewrite En. clear -E0 Hv Hi. assert (G : forall l, NoDup l -> zsum ((fun v0 => zlen (cof (pre ++ [(i, v)]) v0)) <$> l) = zsum ((fun v0 => zlen (cof pre v0)) <$> l) + if bool_decide (v ∈ l) then 1 else 0).
        { induction l as [|x l IHl]; intros Hnd; [done|]. apply NoDup_cons in Hnd as (Hx & Hnd). rewrite !fmap_cons. unfold zsum in *. cbn [foldr]. rewrite (IHl Hnd). rewrite cof_app, zlen_app. cbn [cof snd fst].
          destruct (Z.eqb_spec v x) as [->|Nx].
          - rewrite bool_decide_false by done. rewrite bool_decide_true by left. change (zlen [i]) with 1. lia.
          - change (zlen (@nil Z)) with 0. destruct (bool_decide_reflect (v ∈ l)) as [Hl|Hl]; [rewrite bool_decide_true by (by right)|rewrite bool_decide_false by (intros [?|?]%elem_of_cons; done)]; lia. }
        rewrite (G _ (NoDup_seqZ 0 nb)). rewrite bool_decide_true by (apply elem_of_seqZ; lia). done.
    + exists n. split.
      * cbn [bind]. do 3 f_equal. apply list_fmap_ext. intros j x Hx. apply elem_of_list_lookup_2, elem_of_seqZ in Hx. rewrite cof_app. cbn [cof snd]. replace (v =? x) with false by lia. rewrite app_nil_r. done.
      * rewrite En. f_equal. apply list_fmap_ext. intros j x Hx. apply elem_of_list_lookup_2, elem_of_seqZ in Hx. rewrite cof_app. cbn [cof snd]. replace (v =? x) with false by lia. rewrite app_nil_r. done.
Qed.

(** The offsets. *)
Lemma psum_loop : forZ 1 (nb + 1) (fun k rI => let* x := rd rI k in let* y := rd rI (k - 1) in wr rI k (x + y)) (0 :: ls) = Ok (psums ls).
Proof.
  pose proof len_ls as Hl. pose proof (psums_ok ls) as (Hpl & Hp). rewrite Hl in Hpl, Hp.
  assert (W : wp (forZ 1 (nb + 1) (fun k rI => let* x := rd rI k in let* y := rd rI (k - 1) in wr rI k (x + y)) (0 :: ls)) (fun r => r = psums ls) False).
  { apply (wp_forZ (fun k r => zlen r = nb + 1 /\ forall j, 0 <= j <= nb -> r @ j = if j <? k then psums ls @ j else (0 :: ls) @ j)).
    - lia.
    - split; [rewrite zlen_cons, Hl; lia|]. intros j Hj. destruct (j <? 1) eqn:E; [|done]. assert (j = 0) as -> by lia. rewrite Hp by lia. done.
    - intros k r Hk (Hr & Hx). destruct (zlook_lt ls (k - 1)) as [x Hlx]; [lia|].
      assert (r @ k = Some x) as E1. { rewrite Hx by lia. replace (k <? k) with false by lia. rewrite zlook_cons. replace (k =? 0) with false by lia. done. }
      assert (r @ (k - 1) = Some (zsum (take (Z.to_nat (k - 1)) ls))) as E2. { rewrite Hx by lia. replace (k - 1 <? k) with true by lia. apply Hp. lia. }
      rewrite (rd_ok _ _ _ E1). cbn [bind]. rewrite (rd_ok _ _ _ E2). cbn [bind]. rewrite wr_ok by lia. simpl. split; [by rewrite zlen_zset|]. intros j Hj. rewrite zlook_zset by lia.
      destruct (Z.eqb_spec j k) as [->|N].
      + replace (k <? k + 1) with true by lia. rewrite Hp by lia. f_equal. replace (Z.to_nat k) with (S (Z.to_nat (k - 1))) by lia.
        rewrite zlook_to_nat in Hlx by lia. rewrite (take_S_r _ _ _ Hlx). rewrite zsum1. lia.
      + rewrite Hx by lia. destruct (j <? k) eqn:Ej; [replace (j <? k + 1) with true by lia|replace (j <? k + 1) with false by lia]; done.
    - intros r (Hr & Hx). apply zlook_ext. intros j. destruct (decide (0 <= j <= nb)).
      + rewrite Hx by lia. replace (j <? nb + 1) with true by lia. done.
      + destruct (decide (j < 0)); [rewrite !zlook_neg by lia; done|]. rewrite (proj2 (zlook_None r j)), (proj2 (zlook_None (psums ls) j)); [done|lia..]. }
  destruct (forZ _ _ _ _) as [r| | |]; cbn in W; try done. by rewrite W.
Qed.

(** The first free place. *)
Lemma findFree_ok P A n R : -1 ∉ A -> 0 < n -> findFree (P ++ A ++ replicate (Z.to_nat n) (-1) ++ R) (zlen P) (zlen P + zlen A + n) = Ok (zlen P + zlen A).
Proof.
  intros HA Hn. unfold findFree. pose proof (zlen_nonneg A). pose proof (zlen_nonneg P). replace (_ <? zlen P) with false by lia. cbn [ubif].
  set (l := P ++ A ++ replicate (Z.to_nat n) (-1) ++ R). set (e := zlen P + zlen A + n).
  assert (W : wp (forZ (zlen P) e (fun j '(p, found) => if (found : bool) then Ok (p, found) else let* v := rd l j in Ok (if v =? -1 then (j, true) else (p, false))) (e, false)) (fun r => r.1 = zlen P + zlen A) False).
  { apply (wp_forZ (fun j (s : Z * bool) => if j <=? zlen P + zlen A then s = (e, false) else s = (zlen P + zlen A, true))).
    - lia.
    - replace (_ <=? _) with true by lia. done.
    - intros j s Hj Hs. destruct (j <=? zlen P + zlen A) eqn:E; subst s.
      + destruct (decide (j = zlen P + zlen A)) as [->|N].
        * assert (l @ (zlen P + zlen A) = Some (-1)) as Hr. { unfold l. rewrite zlook_app_r by lia. rewrite zlook_app_r by lia. rewrite zlook_app_l by (rewrite ?zlen_replicate; lia). rewrite zrep. replace ((0 <=? _) && _) with true by lia. done. }
          rewrite (rd_ok _ _ _ Hr). simpl. replace (_ <=? _) with false by lia. done.
        * destruct (zlook_lt A (j - zlen P)) as [v Hv]; [lia|]. assert (l @ j = Some v) as Hr. { unfold l. rewrite zlook_app_r by lia. rewrite zlook_app_l by lia. done. }
          rewrite (rd_ok _ _ _ Hr). cbn [bind]. assert (v <> -1) by (intros ->; apply zlook_elem in Hv; done). replace (v =? -1) with false by lia. simpl. replace (_ <=? _) with true by lia. done.
      + simpl. replace (_ <=? _) with false by lia. done.
    - intros s. replace (_ <=? _) with false by lia. intros ->. done. }
  destruct (forZ _ _ _ _) as [[p b]| | |]; cbn in W; try done. simpl. by subst.
Qed.

(** The cells. *)
Definition slot (pre : list (Z * Z)) (v : Z) : list Z := cof pre v ++ replicate (Z.to_nat (zlen (cof F v) - zlen (cof pre v))) (-1).
Lemma slot_len pre post v : F = pre ++ post -> zlen (slot pre v) = zlen (cof F v).
Proof. intros E. unfold slot. rewrite E. rewrite zlen_app, zlen_replicate, cof_app, zlen_app. pose proof (zlen_nonneg (cof pre v)). pose proof (zlen_nonneg (cof post v)). lia. Qed.
Lemma fill_loop pre post : F = pre ++ post ->
  foldM (fun r (p : Z * Z) => if 0 <=? p.2 then (let* a := rd (psums ls) p.2 in let* b := rd (psums ls) (p.2 + 1) in let* q := findFree r a b in wr r q p.1) else Ok r) pre (concat (slot [] <$> seqZ 0 nb))
  = Ok (concat (slot pre <$> seqZ 0 nb)).
Proof.
  revert post. induction pre as [|[i v] pre IH] using rev_ind; intros post E; [done|]. rewrite foldM_app. rewrite <- app_assoc in E. rewrite (IH _ E). cbn [bind foldM fst snd].
  assert (Hp : (i, v) ∈ F) by (rewrite E; apply elem_of_app; right; left). apply HF in Hp as (Hi & Hv).
  destruct (0 <=? v) eqn:E0; [|cbn [bind]; do 2 f_equal; apply list_fmap_ext; intros j x Hx; apply elem_of_list_lookup_2, elem_of_seqZ in Hx; unfold slot; rewrite cof_app; cbn [cof snd]; replace (v =? x) with false by lia; rewrite app_nil_r; done].
  pose proof (psums_ok ls) as (_ & Hps). rewrite len_ls in Hps. pose proof (ls_at v ltac:(lia)) as Hlv.
  assert (Hsplit : seqZ 0 nb = seqZ 0 v ++ v :: seqZ (v + 1) (nb - v - 1)).
  { replace nb with (v + (1 + (nb - v - 1))) at 1 by lia. rewrite seqZ_app by lia. f_equal. rewrite seqZ_app by lia. done. }
  rewrite Hsplit, !fmap_app, !fmap_cons, !concat_app. cbn [concat].
  set (P := concat (slot pre <$> seqZ 0 v)). set (R := concat (slot pre <$> seqZ (v + 1) (nb - v - 1))).
  assert (HP : zlen P = zsum (take (Z.to_nat v) ls)).
  { unfold P. rewrite zlen_concat. unfold ls, ps. rewrite Hsplit, !fmap_app, take_app_alt by (rewrite !fmap_length, seqZ_length; done). f_equal. rewrite <- !list_fmap_compose. apply list_fmap_ext. intros j x _. cbn. apply (slot_len _ _ _ E). }
  rewrite (rd_ok _ _ _ (Hps v ltac:(lia))). cbn [bind]. rewrite (rd_ok _ _ _ (Hps (v + 1) ltac:(lia))). cbn [bind]. rewrite <- HP.
  assert (zsum (take (Z.to_nat (v + 1)) ls) = zlen P + zlen (cof F v)) as ->.
  { rewrite HP. replace (Z.to_nat (v + 1)) with (S (Z.to_nat v)) by lia. rewrite zlook_to_nat in Hlv by lia. rewrite (take_S_r _ _ _ Hlv). rewrite zsum1. done. }
  assert (Hc : zlen (cof F v) = zlen (cof pre v) + 1 + zlen (cof post v)). { rewrite E, !cof_app, !zlen_app. cbn [cof snd fst]. rewrite Z.eqb_refl. rewrite zlen_cons, zlen_nil. lia. }
  pose proof (zlen_nonneg (cof post v)). set (n := zlen (cof F v) - zlen (cof pre v)). assert (slot pre v ++ R = cof pre v ++ replicate (Z.to_nat n) (-1) ++ R) as -> by (unfold slot; rewrite <- app_assoc; done).
  replace (zlen P + zlen (cof F v)) with (zlen P + zlen (cof pre v) + n) by lia. rewrite findFree_ok; [|intros Hm; apply cof_elem in Hm; assert ((-1, v) ∈ F) as Hm2 by (rewrite E; apply elem_of_app; by left); apply HF in Hm2; lia|lia]. cbn [bind].
  replace (Z.to_nat n) with (S (Z.to_nat (n - 1))) by lia. cbn [replicate].
  rewrite wr_ok by (rewrite !zlen_app, zlen_cons; pose proof (zlen_nonneg P); pose proof (zlen_nonneg (cof pre v)); pose proof (zlen_nonneg R); pose proof (zlen_nonneg (replicate (Z.to_nat (n - 1)) (-1))); lia). cbn [bind].
  f_equal.
  assert (HE : forall a k, (forall x, x ∈ seqZ a k -> x <> v) -> concat (slot (pre ++ [(i, v)]) <$> seqZ a k) = concat (slot pre <$> seqZ a k)).
  { intros a k Hne. f_equal. apply list_fmap_ext. intros j x Hx. apply elem_of_list_lookup_2, Hne in Hx. unfold slot. rewrite cof_app. cbn [cof snd]. replace (v =? x) with false by lia. rewrite app_nil_r. done. }
  rewrite !HE by (intros x Hx; apply elem_of_seqZ in Hx; lia). fold P R.
  assert (slot (pre ++ [(i, v)]) v = cof pre v ++ i :: replicate (Z.to_nat (n - 1)) (-1)) as ->.
  { unfold slot. rewrite cof_app. cbn [cof snd fst]. rewrite Z.eqb_refl. rewrite <- app_assoc. cbn [app]. rewrite zlen_app. change (zlen [i]) with 1. do 4 f_equal. unfold n. lia. }
  rewrite <- app_assoc. cbn [app].
  set (T := replicate (Z.to_nat (n - 1)) (-1) ++ R). rewrite !(app_assoc P). rewrite <- zlen_app. clear. generalize (P ++ cof pre v) as Q. intros Q. pose proof (zlen_nonneg T). pose proof (zlen_nonneg Q). apply zlook_ext. intros j. rewrite zlook_zset by (rewrite zlen_app, zlen_cons; lia). rewrite !zlook_app, !zlook_cons.
  destruct (Z.eqb_spec j (zlen Q)) as [->|N].
  - replace (zlen Q <? zlen Q) with false by lia. rewrite Z.sub_diag. done.
  - destruct (j <? zlen Q); [done|]. replace (j - zlen Q =? 0) with false by lia. done.
Qed.
Lemma slot_end : concat (slot F <$> seqZ 0 nb) = concat ps.
Proof. unfold ps. f_equal. apply list_fmap_ext. intros j x _. unfold slot. rewrite Z.sub_diag. apply app_nil_r. Qed.
Lemma slot_start : concat (slot [] <$> seqZ 0 nb) = replicate (Z.to_nat (zsum ls)) (-1).
Proof.
  unfold ls, ps. induction (seqZ 0 nb) as [|x l IH]; [done|]. rewrite !fmap_cons. cbn [concat]. rewrite IH. unfold slot, zsum. cbn [cof app foldr]. change (zlen (@nil Z)) with 0. rewrite Z.sub_0_r.
  pose proof (zlen_nonneg (cof F x)). assert (0 <= foldr Z.add 0 (zlen <$> (cof F <$> l))). { clear. induction l as [|y l IH]; [done|]. rewrite !fmap_cons. cbn [foldr]. pose proof (zlen_nonneg (cof F y)). lia. }
  rewrite Z2Nat.inj_add by lia. symmetry. apply replicate_add.
Qed.
End Rev.

Lemma rev_ok m cells nb : stores m cells -> has_nodes m nb -> (forall v, used cells v -> v < nb) ->
  exists r rI, getReverseNodalConnectivity m = Ok (r, rI) /\ skyline (cells_of_node 0 cells <$> seqZ 0 nb) r rI.
Proof.
  intros Hs (d & Hd & Ha & Hw & Hnt) Hu. destruct (stores_get m cells Hs) as (conn & connI & Ec & EI & Hsky & _). pose proof (numCells_ok m cells Hs) as Hn.
  destruct (da_wf_len d Hw) as (_ & Hnb0 & _). rewrite Hnt in Hnb0. set (F := occ 0 cells).
  assert (HF : forall i v, (i, v) ∈ F -> 0 <= i /\ v < nb).
  { intros i v Hin. unfold F in Hin. apply occ_elem in Hin as (c & Hc & Hv). apply zlook_Some_lt in Hc as ?. split; [lia|]. destruct (decide (0 <= v)); [|lia]. apply Hu. split; [done|]. exists c. split; [by eapply zlook_elem|done]. }
  exists (concat (cells_of_node 0 cells <$> seqZ 0 nb)), (psums (zlen <$> (cells_of_node 0 cells <$> seqZ 0 nb))). split; [|apply skyline_psums].
  assert (Hps : cof F <$> seqZ 0 nb = cells_of_node 0 cells <$> seqZ 0 nb) by (apply list_fmap_ext; intros j x _; apply cof_occ).
  unfold getReverseNodalConnectivity, checkFullyDefined. rewrite Ec, EI, Hd, Hnt, Hn. cbn [bind].
  rewrite (until_ok cells conn connI _ _ Hsky). fold F. destruct (count_loop nb F Hnb0 HF F) as (n & E1 & En); [done|].
  rewrite E1. cbn [bind].
  assert (Hls : (fun v => zlen (cof F v)) <$> seqZ 0 nb = zlen <$> (cof F <$> seqZ 0 nb)) by (rewrite <- list_fmap_compose; done).
  rewrite Hls in *. rewrite (psum_loop nb F Hnb0). cbn [bind]. rewrite (until_ok cells conn connI _ _ Hsky). fold F. rewrite En, <- (slot_start nb F). rewrite (fill_loop nb F Hnb0 HF F []); [|by rewrite app_nil_r]. cbn [bind]. rewrite slot_end, Hps. done.
all: exact HF. Qed.
