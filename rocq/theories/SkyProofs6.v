From Verif Require Import Base DataArray ArrLib SlicesSpec SlicesModel SlicesProofs RenumSpec RenumModel RenumProofs SearchSpec StdModel StdProofs SearchProofs IndexSpec IndexModel FillLib IndexProofs IndexProofs2 IndexProofs3 IndexProofs4 IndexProofs5 LayoutModel SkyModel SkySpec SkyProofs SkyProofs2 SkyProofs3 SkyProofs4 SkyProofs5.
From Coq Require Import ZifyBool ZifyNat.

(** * AggregatePacks. *)
Definition col (k : Z) (pss : list (list (list Z))) : list (list Z) := omap (fun ps => ps @ k) pss.
Lemma col_cons k ps pss p : ps @ k = Some p -> col k (ps :: pss) = p :: col k pss.
Proof. intros H. unfold col. simpl. by rewrite H. Qed.
Lemma agg_pack ps s k p : sky2 ps s -> ps @ k = Some p -> exists a, s_index s @ k = Some a /\ s_index s @ (k + 1) = Some (a + zlen p) /\ 0 <= a /\ a + zlen p <= zlen (s_values s) /\ sub (s_values s) a (a + zlen p) = p.
Proof.
  intros Hs Hp. pose proof (list_split _ _ _ Hp) as E. pose proof (zlook_Some_lt _ _ _ Hp). rewrite E in Hs. destruct (sky2_at _ _ _ _ Hs) as (x & y & H' & Hv & _ & Hi & H0 & H1 & _).
  rewrite zlen_take in H0, H1. replace (Z.min _ _) with k in H0, H1 by lia. exists (zlen x). split; [done|]. split; [done|]. pose proof (zlen_nonneg x). pose proof (zlen_nonneg y). rewrite Hv. split; [lia|].
  split; [rewrite !zlen_app; lia|]. by apply sub_mid.
Qed.
Lemma agg_count pss sks k n : Forall2 sky2 pss sks -> (forall ps, ps ∈ pss -> 0 <= k < zlen ps) ->
  foldM (fun n sk => let* b := rd (s_index sk) (k + 1) in let* a := rd (s_index sk) k in Ok (n + (b - a))) sks n = Ok (n + zlen (concat (col k pss))).
Proof.
  intros HF. revert n. induction HF as [|ps s pss sks Hs HF IH]; intros n Hk; [cbn; by rewrite Z.add_0_r|].
  destruct (zlook_lt ps k) as [p Hp]; [apply Hk; set_solver|]. destruct (agg_pack _ _ _ _ Hs Hp) as (a & H0 & H1 & _). cbn [foldM]. rewrite (rd_ok _ _ _ H1), (rd_ok _ _ _ H0). cbn [bind].
  rewrite IH by (intros; apply Hk; set_solver). rewrite (col_cons _ _ _ _ Hp). change (concat (p :: col k pss)) with (p ++ concat (col k pss)). rewrite zlen_app. f_equal. lia.
Qed.
Lemma agg_copy pss sks k pre m : Forall2 sky2 pss sks -> (forall ps, ps ∈ pss -> 0 <= k < zlen ps) -> zlen (concat pre) + zlen (concat (col k pss)) <= m ->
  foldM (fun '(vs, o) sk =>
      let* a := rd (s_index sk) k in let* b := rd (s_index sk) (k + 1) in
      let* vs := copyc (s_values sk) a b vs o in Ok (vs, o + (b - a))) sks (ost m pre, zlen (concat pre)) = Ok (ost m (pre ++ col k pss), zlen (concat (pre ++ col k pss))).
Proof.
  intros HF. revert pre. induction HF as [|ps s pss sks Hs HF IH]; intros pre Hk Hm; [cbn [foldM]; unfold col; simpl; by rewrite app_nil_r|].
  destruct (zlook_lt ps k) as [p Hp]; [apply Hk; set_solver|]. destruct (agg_pack _ _ _ _ Hs Hp) as (a & H0 & H1 & Ha & Hb & Hsub). rewrite (col_cons _ _ _ _ Hp) in *.
  change (concat (p :: col k pss)) with (p ++ concat (col k pss)) in Hm. rewrite zlen_app in Hm. pose proof (zlen_nonneg p). pose proof (zlen_nonneg (concat (col k pss))).
  cbn [foldM]. rewrite (rd_ok _ _ _ H0), (rd_ok _ _ _ H1). cbn [bind]. rewrite ost_copy by lia. cbn [bind]. rewrite Hsub.
  assert (zlen (concat pre) + (a + zlen p - a) = zlen (concat (pre ++ [p]))) as -> by (rewrite concat_snoc, zlen_app; lia).
  rewrite IH; [by rewrite <- app_assoc|intros; apply Hk; set_solver|rewrite concat_snoc, zlen_app; lia].
Qed.
(** The first loop: the arrays that are not null, all with the same number of packs. *)
Definition agg1 : list sky * Z -> option sky -> res (list sky * Z) := fun '(eff, nb) sk =>
    match sk with
    | None => Ok (eff, nb)
    | Some sk =>
      let cur := zlen (s_index sk) - 1 in
      let nb := (if bool_decide (eff = []) then cur else nb) in
      throw_if negb (nb =? cur) >>> Ok (eff ++ [sk], nb)
    end.
Lemma agg1_ok n sks : (forall sk, Some sk ∈ sks -> zlen (s_index sk) = n + 1) -> forall eff nb, (eff = [] \/ nb = n) ->
  exists nb', foldM agg1 sks (eff, nb) = Ok (eff ++ omap id sks, nb') /\ (omap id sks <> [] \/ eff <> [] -> nb' = n).
Proof.
  induction sks as [|[sk|] sks IH]; intros Hn eff nb He.
  - exists nb. cbn [foldM]. simpl omap. rewrite app_nil_r. split; [done|]. intros [?|?]; [done|]. destruct He; done.
  - cbn [foldM]. unfold agg1 at 1. rewrite (Hn sk) by set_solver. replace (n + 1 - 1) with n by lia.
    assert ((if bool_decide (eff = []) then n else nb) = n) as -> by (case_bool_decide; [done|]; destruct He; done). rewrite Z.eqb_refl. cbn [negb ifthrow bind].
    destruct (IH ltac:(intros; apply Hn; set_solver) (eff ++ [sk]) n) as (nb' & H1 & H2); [by right|]. exists nb'. rewrite H1. change (omap id (Some sk :: sks)) with (sk :: omap id sks). rewrite <- app_assoc. split; [done|].
    intros _. apply H2. right. by destruct eff.
  - cbn [foldM]. unfold agg1 at 1. cbn [bind]. change (omap id (None :: sks)) with (omap id sks). apply IH; [|done]. intros; apply Hn; set_solver.
Qed.
Lemma aggP_ok sks pss n : omap id sks <> [] -> Forall2 sky2 pss (omap id sks) -> (forall ps, ps ∈ pss -> zlen ps = n) ->
  exists s' r, AggregatePacks sks = Ok s' /\ sky2 r s' /\ aggregated pss r.
Proof.
  intros Hne HF Hn. set (eff := omap id sks) in *.
  assert (0 <= n) as Hn0. { destruct HF as [|ps s pss eff0 ? ?]; [done|]. rewrite <- (Hn ps) by set_solver. apply zlen_nonneg. }
  assert (forall sk, Some sk ∈ sks -> zlen (s_index sk) = n + 1) as Hsk.
  { intros sk Hin. assert (sk ∈ eff) as He by (apply elem_of_list_omap; exists (Some sk); done). apply elem_of_list_lookup in He as [i Hi].
    destruct (Forall2_lookup_r _ _ _ _ _ HF Hi) as (ps & Hps & Hs). rewrite (len2 _ _ Hs). f_equal. apply Hn. by eapply elem_of_list_lookup_2. }
  unfold AggregatePacks. destruct (agg1_ok n sks Hsk [] 9223372036854775807 (or_introl eq_refl)) as (nb' & H1 & H2). unfold agg1 in H1. rewrite H1. cbn [bind]. rewrite app_nil_l. fold eff. rewrite H2 by (by left). clear H1 H2 nb'.
  rewrite bool_decide_false by done. cbn [ifthrow]. clearbody eff. clear Hsk sks.
  rewrite alloc1 by lia. cbn [bind]. rewrite iost_start by lia. cbn [bind].
  set (res := (fun k => concat (col k pss)) <$> seqZ 0 n).
  assert (zlen res = n) as Hrl by (unfold res; rewrite zlen_fmap, zlen_seqZ; lia).
  assert (forall pre b post, res = pre ++ b :: post -> zlen pre < n /\ b = concat (col (zlen pre) pss)) as Hb.
  { intros pre b post E. pose proof (zlen_nonneg pre). assert (res @ zlen pre = Some b) as Hb by (rewrite E, zlook_app_r by lia; by rewrite Z.sub_diag). pose proof (zlook_Some_lt _ _ _ Hb). split; [lia|].
    unfold res in Hb. rewrite zlook_fmap, zlook_seqZ in Hb by lia. simpl in Hb. injection Hb as <-. done. }
  pose (st := fun pre : list (list Z) => iost n (zlen <$> pre)). change (iost n []) with (st []).
  rewrite (forZ_blocks _ st n res Hrl).
  2: { intros pre b post E. destruct (Hb _ _ _ E) as [Hl ->]. pose proof (zlen_nonneg pre). rewrite (agg_count pss) by (done || (intros ps Hps; rewrite (Hn ps Hps); lia)). cbn [bind]. unfold st.
    pose proof (iost_rd n (zlen <$> pre)) as Hrd. rewrite zlen_fmap in Hrd. rewrite Hrd. cbn [bind].
    rewrite (iost_wr _ _ (zlen (concat (col (zlen pre) pss)))) by (rewrite ?zlen_fmap; lia). by rewrite fmap_snoc. }
  unfold st. cbn [bind]. pose proof (iost_rd n (zlen <$> res)) as Hrd. rewrite zlen_fmap, Hrl in Hrd. rewrite Hrd. cbn [bind]. rewrite <- zlen_concat.
  rewrite alloc1 by apply zlen_nonneg. cbn [bind]. rewrite ost_start. set (m := zlen (concat res)).
  pose (st2 := fun pre : list (list Z) => (ost m pre, zlen (concat pre))). change (ost m [], 0) with (st2 []).
  rewrite (forZ_blocks _ st2 n res Hrl).
  2: { intros pre b post E. destruct (Hb _ _ _ E) as [Hl ->]. pose proof (zlen_nonneg pre). unfold st2.
    pose proof (zlen_pre pre (concat (col (zlen pre) pss)) post) as Hz. rewrite <- E in Hz. fold m in Hz. pose proof (zlen_nonneg (concat post)).
    rewrite (agg_copy pss) by (done || lia || (intros ps Hps; rewrite (Hn ps Hps); lia)).
    unfold ost. rewrite !concat_app. change (concat [concat (col (zlen pre) pss)]) with (concat (col (zlen pre) pss) ++ []). by rewrite app_nil_r. }
  unfold st2. cbn [bind]. rewrite ost_end by done. assert (iost n (zlen <$> res) = Some <$> psums (zlen <$> res)) as -> by (rewrite <- iost_end; f_equal; by rewrite zlen_fmap). rewrite !initialised_ok. cbn [bind].
  eexists _, res. split; [done|]. split; [apply sky2_psums|]. split; [intros ps Hps; rewrite (Hn ps Hps); lia|].
  intros k q Hq. pose proof (zlook_Some_lt _ _ _ Hq). unfold res in Hq. rewrite zlook_fmap, zlook_seqZ in Hq by lia. simpl in Hq. injection Hq as <-. done.
Qed.
Lemma agg1_throw sks : forall eff nb, (eff <> [] -> forall sk, sk ∈ eff -> zlen (s_index sk) - 1 = nb) ->
  (exists s1 s2, (s1 ∈ eff \/ Some s1 ∈ sks) /\ (s2 ∈ eff \/ Some s2 ∈ sks) /\ zlen (s_index s1) <> zlen (s_index s2)) -> foldM agg1 sks (eff, nb) = Throw.
Proof.
  induction sks as [|[sk|] sks IH]; intros eff nb He (s1 & s2 & Hi1 & Hi2 & Hd).
  - exfalso. assert (eff <> []) as Hne by (intros ->; set_solver). specialize (He Hne). apply Hd. destruct Hi1 as [Hi1|?]; [|set_solver]. destruct Hi2 as [Hi2|?]; [|set_solver].
    pose proof (He _ Hi1). pose proof (He _ Hi2). lia.
  - cbn [foldM]. unfold agg1 at 1. destruct (_ =? _) eqn:E; cbn [negb ifthrow bind]; [|done]. apply IH.
    + intros _ sk' Hin. apply elem_of_app in Hin. destruct Hin as [Hin|Hin]; [|apply elem_of_list_singleton in Hin; subst sk'; case_bool_decide; lia]. case_bool_decide; [subst eff; set_solver|]. by apply He.
    + exists s1, s2. rewrite !elem_of_app, !elem_of_list_singleton. rewrite !elem_of_cons in Hi1, Hi2. split; [|split; [|done]]; intuition congruence.
  - cbn [foldM]. unfold agg1 at 1. cbn [bind]. apply IH; [done|]. exists s1, s2. rewrite !elem_of_cons in Hi1, Hi2. split; [|split; [|done]]; intuition congruence.
Qed.
Lemma aggP_throw sks : (forall sk, Some sk ∉ sks) \/ (exists s1 s2, Some s1 ∈ sks /\ Some s2 ∈ sks /\ zlen (s_index s1) <> zlen (s_index s2)) -> AggregatePacks sks = Throw.
Proof.
  intros [H|(s1 & s2 & H1 & H2 & H3)].
  - unfold AggregatePacks. destruct (agg1_ok 0 sks ltac:(intros sk Hin; by apply H in Hin) [] 9223372036854775807 (or_introl eq_refl)) as (nb' & H1 & _). unfold agg1 in H1. rewrite H1. cbn [bind].
    rewrite app_nil_l. rewrite bool_decide_true; [done|]. clear H1. destruct (omap id sks) as [|x l] eqn:E; [done|]. exfalso. assert (x ∈ omap id sks) as Hx by (rewrite E; set_solver).
    apply elem_of_list_omap in Hx as (o & Ho & Hoe). unfold id in Hoe. subst o. by apply (H x).
  - unfold AggregatePacks. pose proof (agg1_throw sks [] 9223372036854775807) as Ht. unfold agg1 in Ht. rewrite Ht; [done|done|]. exists s1, s2. set_solver.
Qed.

(** * thresholdPerPack. *)
Definition below (t : Z) (p : list Z) : list Z := filter (fun x => x < t) p.
Definition above (t : Z) (p : list Z) : list Z := filter (fun x => ~ x < t) p.
Lemma below_above t p : zlen (below t p) + zlen (above t p) = zlen p.
Proof.
  induction p as [|x p IH]; [done|]. unfold below, above in *. rewrite !filter_cons. destruct (decide (x < t)); destruct (decide (~ x < t)); try tauto; rewrite !zlen_cons; lia.
Qed.
Lemma thr_in t p : forall L m1 R m2, zlen (below t p) <= m1 -> zlen (above t p) <= m2 ->
  foldM (fun '(lv, lo, rv, ro) elt =>
      if elt <? t then let* lv := wrc lv lo elt in Ok (lv, lo + 1, rv, ro)
      else let* rv := wrc rv ro elt in Ok (lv, lo, rv, ro + 1)) p ((Some <$> L) ++ malloc Z m1, zlen L, (Some <$> R) ++ malloc Z m2, zlen R) =
  Ok ((Some <$> (L ++ below t p)) ++ malloc Z (m1 - zlen (below t p)), zlen (L ++ below t p), (Some <$> (R ++ above t p)) ++ malloc Z (m2 - zlen (above t p)), zlen (R ++ above t p)).
Proof.
  induction p as [|x p IH]; intros L m1 R m2 H1 H2.
  - cbn [foldM]. change (below t []) with (@nil Z). change (above t []) with (@nil Z). rewrite !app_nil_r, zlen_nil, !Z.sub_0_r. done.
  - cbn [foldM]. unfold below, above in *. rewrite !filter_cons in *. pose proof (zlen_nonneg (filter (fun x => x < t) p)). pose proof (zlen_nonneg (filter (fun x => ~ x < t) p)).
    destruct (decide (x < t)) as [Hx|Hx].
    + replace (x <? t) with true by lia. destruct (decide (~ x < t)) as [?|_]; [done|]. rewrite zlen_cons in *. rewrite wrc_fill by (done || lia). cbn [bind].
      assert (zlen L + 1 = zlen (L ++ [x])) as -> by (rewrite zlen_app; done). rewrite IH by lia. rewrite <- !app_assoc. simpl app. do 5 f_equal. f_equal. lia.
    + replace (x <? t) with false by lia. destruct (decide (~ x < t)) as [_|?]; [|done]. rewrite zlen_cons in *. rewrite wrc_fill by (done || lia). cbn [bind].
      assert (zlen R + 1 = zlen (R ++ [x])) as -> by (rewrite zlen_app; done). rewrite IH by lia. rewrite <- !app_assoc. simpl app. do 3 f_equal. f_equal. f_equal. lia.
Qed.
Lemma thr_ok ps s t : sky2 ps s -> exists sl sr, thresholdPerPack s t = Ok (sl, sr) /\ sky2 (below t <$> ps) sl /\ sky2 (above t <$> ps) sr.
Proof.
  intros Hs. pose proof (len2 _ _ Hs) as Hl. pose proof (zlen_nonneg ps). unfold thresholdPerPack. replace (zlen (s_index s) - 1) with (zlen ps) by lia.
  assert (forall pre b post, ps = pre ++ b :: post -> exists a, s_index s @ zlen pre = Some a /\ s_index s @ (zlen pre + 1) = Some (a + zlen b) /\ saveBlock (s_values s) a (a + zlen b) = Ok b) as Hp.
  { intros pre b post ->. destruct (sky2_at _ _ _ _ Hs) as (x & y & H' & Hv & _ & Hi & H0 & H1 & _). exists (zlen x). split; [done|]. split; [done|]. rewrite Hv. by apply save_mid. }
  rewrite alloc1 by lia. cbn [bind].
  pose (st := fun pre : list (list Z) => (Some <$> (zlen <$> (below t <$> pre))) ++ malloc Z (zlen ps - zlen pre)).
  replace (malloc Z (zlen ps)) with (st []) by (unfold st; simpl; by rewrite zlen_nil, Z.sub_0_r).
  rewrite (forZ_blocks _ st (zlen ps) ps eq_refl).
  2: { intros pre b post E. destruct (Hp _ _ _ E) as (a & H0 & H1 & H2). rewrite (rd_ok _ _ _ H0), (rd_ok _ _ _ H1). cbn [bind]. rewrite H2. cbn [bind]. unfold st.
    assert (zlen pre < zlen ps) by (rewrite E, zlen_app, zlen_cons; pose proof (zlen_nonneg post); lia). rewrite wrc_fill by (rewrite ?zlen_fmap; lia).
    rewrite !fmap_snoc, zlen_app. change (zlen [b]) with 1. do 3 f_equal. lia. }
  cbn [bind]. unfold st. rewrite fill_done by lia. rewrite initialised_ok. cbn [bind]. clear st.
  destruct (delta_ok (vec (s_index s)) eq_refl eq_refl) as (sp & -> & Hspl & Hsp); [rewrite da_nt_vec; lia|]. cbn [bind]. rewrite initialised_ok. cbn [bind].
  assert (sp = zlen <$> ps) as ->.
  { rewrite da_nt_vec in Hspl. apply zlook_ext_lt; [rewrite zlen_fmap; lia|]. intros i Hi. destruct (zlook_lt ps i) as [p Hpi]; [lia|]. rewrite zlook_fmap, Hpi. simpl.
    destruct (agg_pack _ _ _ _ Hs Hpi) as (a & H0 & H1 & _). rewrite (Hsp i a (a + zlen p)) by done. f_equal. lia. }
  set (lc := zlen <$> (below t <$> ps)). assert (zlen (zlen <$> ps) = zlen lc) as Hll by (unfold lc; by rewrite !zlen_fmap). rewrite Hll, Z.eqb_refl. cbn [negb ifthrow].
  assert (zip_with Z.sub (zlen <$> ps) lc = zlen <$> (above t <$> ps)) as ->.
  { unfold lc. clear. induction ps as [|p ps IH]; [done|]. rewrite !fmap_cons. simpl. f_equal; [|exact IH]. pose proof (below_above t p). lia. }
  set (rc := zlen <$> (above t <$> ps)). rewrite !zsum_foldl.
  destruct (offsetsFull_ok (vec lc) eq_refl eq_refl) as (li & -> & Hli). apply prefix_sums_eq in Hli as ->. destruct (offsetsFull_ok (vec rc) eq_refl eq_refl) as (ri & -> & Hri). apply prefix_sums_eq in Hri as ->. cbn [bind vec da_vals].
  unfold lc, rc. rewrite <- !zlen_concat. rewrite !alloc1 by apply zlen_nonneg. cbn [bind]. set (m1 := zlen (concat (below t <$> ps))). set (m2 := zlen (concat (above t <$> ps))).
  pose (st := fun pre : list (list Z) => (ost m1 (below t <$> pre), zlen (concat (below t <$> pre)), ost m2 (above t <$> pre), zlen (concat (above t <$> pre)))).
  rewrite !ost_start. change (ost m1 [], 0, ost m2 [], 0) with (st []).
  rewrite (forZ_blocks _ st (zlen ps) ps eq_refl).
  2: { intros pre b post E. destruct (Hp _ _ _ E) as (a & H0 & H1 & H2). rewrite (rd_ok _ _ _ H0), (rd_ok _ _ _ H1). cbn [bind]. rewrite H2. cbn [bind]. unfold st.
    pose proof (zlen_pre (below t <$> pre) (below t b) (below t <$> post)) as Hz1. rewrite <- fmap_cons, <- fmap_app, <- E in Hz1. fold m1 in Hz1.
    pose proof (zlen_pre (above t <$> pre) (above t b) (above t <$> post)) as Hz2. rewrite <- fmap_cons, <- fmap_app, <- E in Hz2. fold m2 in Hz2.
    pose proof (zlen_nonneg (concat (below t <$> post))). pose proof (zlen_nonneg (concat (above t <$> post))).
    unfold ost. rewrite thr_in by lia. rewrite !fmap_snoc, !concat_snoc. rewrite !zlen_app, !Z.sub_add_distr. done. }
  unfold st. cbn [bind]. rewrite !initialised_ok. cbn [bind]. rewrite !ost_end by done. rewrite !initialised_ok. cbn [bind].
  eexists _, _. split; [done|]. split; apply sky2_psums.
Qed.
