(** Queries on localizations; aggregation of discretizations. *)
From Coq Require Import QArith Qabs Lqa ZifyBool ZifyNat.
From Verif Require Import Base DataArray ArrLib FillLib IndexModel IndexSpec IndexProofs6 SkyModel SkyProofs CellTable UmModel UmSpec UmProofs UmProofs2 UcModel MgProofs4 PermProofs GlModel GlSpec GlProofs.
Local Open Scope Z_scope.

(** * Queries *)
Lemma idOfCell_ok n g dpc c : good n g -> gd_dpc g = Some dpc -> 0 <= c < n ->
  match loc_of g c with Some l => exists id, getGaussLocalizationIdOfOneCell g c = Ok id /\ getGaussLocalization g id = Ok l | None => getGaussLocalizationIdOfOneCell g c = Throw end.
Proof.
  intros Hg Hd Hc. unfold good in Hg. rewrite Hd in Hg. destruct Hg as [Hn Hv]. unfold loc_of, getGaussLocalizationIdOfOneCell. rewrite Hd. destruct (zlook_lt dpc c ltac:(lia)) as [id Hid]. rewrite Hid, (rd_ok _ _ _ Hid). cbn [bind]. destruct (Hv id) as [->|Hr]; [eapply zlook_elem; exact Hid|done|].
  destruct (zlook_lt (gd_loc g) id Hr) as [l Hl]. rewrite Hl. exists id. replace (id <? 0) with false by lia. split; [done|]. unfold getGaussLocalization. replace ((id <? 0) || (zlen (gd_loc g) <=? id)) with false by lia. cbn [ifthrow]. by apply rd_ok.
Qed.
Lemma sel_ok {A} (P : A -> bool) (l : list A) : exists ret, forZ 0 (zlen l) (fun i ret => let* v := rd l i in Ok (if P v then ret ++ [i] else ret)) [] = Ok ret /\ ascending ret /\ forall i, i ∈ ret <-> exists v, l @ i = Some v /\ P v = true.
Proof.
  set (Q := fun i => match l @ i with Some v => P v | None => false end).
  match goal with |- context [forZ ?a ?b ?f ?s0] => assert (W : wp (forZ a b f s0) (fun s => s = kept Q (zlen l)) False) end.
  { apply (wp_forZ (fun i s => s = kept Q i)); [apply zlen_nonneg|done| |done]. intros i s Hi ->. destruct (zlook_lt l i ltac:(lia)) as [v Hv]. rewrite (rd_ok _ _ _ Hv). cbn [bind wp]. assert (EQ : Q i = P v) by (unfold Q; by rewrite Hv). rewrite kept_succ, EQ by lia. destruct (P v); [done|by rewrite app_nil_r]. }
  apply wp_ok in W as (ret & -> & ->). eexists. split; [reflexivity|]. split; [apply kept_ascending, zlen_nonneg|]. intros i. rewrite kept_elem by apply zlen_nonneg. unfold Q. split.
  - intros [Hi H]. destruct (l @ i) as [v|]; [eauto|done].
  - intros (v & Hv & HP). rewrite Hv. apply zlook_Some_lt in Hv as ?. split; [lia|done].
Qed.
Lemma idsOfType_ok g dpc t : gd_dpc g = Some dpc -> exists ids, getGaussLocalizationIdsOfOneType g t = Ok ids /\ ascending ids /\ forall id, id ∈ ids <-> exists l, gd_loc g @ id = Some l /\ gl_type l = t.
Proof.
  intros Hd. unfold getGaussLocalizationIdsOfOneType. rewrite Hd. destruct (sel_ok (fun l => gl_type l =? t) (gd_loc g)) as (ret & E & Ha & Hr). exists ret. split; [done|]. split; [done|]. intros id. rewrite Hr. split; intros (l & Hl & E'); exists l; split; [done|lia|done|lia].
Qed.
Lemma idOfType_ok g dpc t : gd_dpc g = Some dpc ->
  (exists id, getGaussLocalizationIdOfOneType g t = Ok id /\ forall i, (exists l, gd_loc g @ i = Some l /\ gl_type l = t) <-> i = id) \/
  getGaussLocalizationIdOfOneType g t = Throw /\ ~ exists id, forall i, (exists l, gd_loc g @ i = Some l /\ gl_type l = t) <-> i = id.
Proof.
  intros Hd. unfold getGaussLocalizationIdOfOneType. destruct (idsOfType_ok g dpc t Hd) as (ids & -> & Ha & Hr). cbn [bind]. destruct ids as [|x [|y r]].
  - right. split; [done|]. intros (id & H). destruct (H id) as [_ H']. specialize (H' eq_refl). apply Hr in H'. by apply elem_of_nil in H'.
  - left. exists x. split; [done|]. intros i. rewrite <- Hr. apply elem_of_list_singleton.
  - right. split; [done|]. intros (id & H). assert (x = id) by (apply H, Hr; left). assert (y = id) by (apply H, Hr; right; left). destruct Ha as [Ha _]. specialize (Ha y ltac:(left)). lia.
Qed.
Lemma cellsHaving_ok g dpc id : gd_dpc g = Some dpc ->
  (0 <= id < zlen (gd_loc g) /\ exists cs, getCellIdsHavingGaussLocalization g id = Ok cs /\ ascending cs /\ forall c, c ∈ cs <-> dpc @ c = Some id) \/
  ~ 0 <= id < zlen (gd_loc g) /\ getCellIdsHavingGaussLocalization g id = Throw.
Proof.
  intros Hd. unfold getCellIdsHavingGaussLocalization. rewrite Hd. destruct ((id <? 0) || (zlen (gd_loc g) <=? id)) eqn:E; cbn [ifthrow]; [right; split; [lia|done]|left; split; [lia|]].
  destruct (sel_ok (fun v => v =? id) dpc) as (ret & E' & Ha & Hr). exists ret. split; [done|]. split; [done|]. intros c. rewrite Hr. split; [intros (v & Hv & ?); rewrite Hv; f_equal; lia|intros Hc; exists id; split; [done|lia]].
Qed.
Lemma orphan_ok n g dpc : good n g -> gd_dpc g = Some dpc -> checkNoOrphanCells g = Ok tt /\ complete g \/ checkNoOrphanCells g = Throw /\ ~ complete g.
Proof.
  intros Hg Hd. unfold good in Hg. rewrite Hd in Hg. destruct Hg as [Hn Hv]. unfold checkNoOrphanCells, complete. rewrite Hd. destruct (List.filter (fun v => v =? -1) dpc) as [|x r] eqn:E.
  - left. split; [done|]. exists dpc. split; [done|]. intros id Hid. destruct (Hv id Hid) as [->|]; [|done]. assert (Hin : List.In (-1) (List.filter (fun v => v =? -1) dpc)) by (apply List.filter_In; split; [by apply elem_of_list_In|done]). rewrite E in Hin. destruct Hin.
  - right. split; [rewrite zlen_cons; pose proof (zlen_nonneg r); replace (_ =? 0) with false by lia; done|]. intros (dpc' & [= <-] & H). assert (Hin : List.In x (List.filter (fun v => v =? -1) dpc)) by (rewrite E; left; done). apply List.filter_In in Hin as [Hin Hx]. apply elem_of_list_In in Hin. specialize (H x Hin). lia.
Qed.
Lemma setLoc_ok g id l : 0 <= id -> exists g', setGaussLocalization id l g = Ok g' /\ gd_dpc g' = gd_dpc g /\ zlen (gd_loc g') = Z.max (zlen (gd_loc g)) (id + 1) /\
  (forall k, gd_loc g' @ k = if k =? id then Some l else if (0 <=? k) && (k <? zlen (gd_loc g)) then gd_loc g @ k else if (0 <=? k) && (k <? id) then Some (GL NORM_ERROR [] [] []) else None).
Proof.
  intros Hid. unfold setGaussLocalization. replace (id <? 0) with false by lia. cbn [ifthrow]. pose proof (zlen_nonneg (gd_loc g)). destruct (Z.leb_spec (zlen (gd_loc g)) id) as [Hle|Hlt].
  - assert (Hl : zlen (gd_loc g ++ replicate (Z.to_nat (id + 1 - zlen (gd_loc g))) (GL NORM_ERROR [] [] [])) = id + 1) by (rewrite zlen_app, zlen_replicate; lia). rewrite wr_ok by lia. cbn [bind]. eexists. split; [reflexivity|]. cbn [gd_dpc gd_loc]. split; [done|]. split; [rewrite zlen_zset; lia|]. intros k. rewrite zlook_zset by lia. destruct (Z.eqb_spec k id); [done|]. destruct ((0 <=? k) && (k <? zlen (gd_loc g))) eqn:E1.
    + rewrite zlook_app_l by lia. done.
    + destruct ((0 <=? k) && (k <? id)) eqn:E2; [rewrite zlook_app_r by lia; rewrite zlook_replicate by lia; done|]. apply zlook_None. lia.
  - rewrite wr_ok by lia. cbn [bind]. eexists. split; [reflexivity|]. cbn [gd_dpc gd_loc]. split; [done|]. split; [rewrite zlen_zset; lia|]. intros k. rewrite zlook_zset by lia. destruct (Z.eqb_spec k id); [done|]. destruct ((0 <=? k) && (k <? zlen (gd_loc g))) eqn:E1; [done|]. replace ((0 <=? k) && (k <? id)) with false by lia. apply zlook_None. lia.
Qed.
Lemma resizeLoc_ok g sz : 0 <= sz -> exists g', resizeLocalizationVector sz g = Ok g' /\ gd_dpc g' = gd_dpc g /\ zlen (gd_loc g') = sz /\
  (forall k, 0 <= k < sz -> gd_loc g' @ k = if k <? zlen (gd_loc g) then gd_loc g @ k else Some (GL NORM_ERROR [] [] [])).
Proof.
  intros Hs. unfold resizeLocalizationVector. replace (sz <? 0) with false by lia. cbn [ifthrow]. pose proof (zlen_nonneg (gd_loc g)). eexists. split; [reflexivity|]. cbn [gd_dpc gd_loc]. split; [done|]. destruct (Z.ltb_spec sz (zlen (gd_loc g))) as [Hlt|Hge].
  - split; [rewrite zlen_take; lia|]. intros k Hk. rewrite zlook_take by lia. replace (k <? zlen (gd_loc g)) with true by lia. done.
  - split; [rewrite zlen_app, zlen_replicate; lia|]. intros k Hk. destruct (Z.ltb_spec k (zlen (gd_loc g))); [rewrite zlook_app_l by lia; done|]. rewrite zlook_app_r by lia. apply zlook_replicate. lia.
Qed.

(** * Equality of localizations *)
Lemma Qltb_iff x y : Qltb x y = true <-> (x < y)%Q.
Proof. unfold Qltb. rewrite negb_true_iff. split; intros H. - apply Qnot_le_lt. intros H'. apply Qle_bool_iff in H'. congruence. - destruct (Qle_bool y x) eqn:E; [|done]. apply Qle_bool_iff in E. exfalso. apply (Qlt_not_le _ _ H E). Qed.
Lemma maxElement_lt eps r : forall x, (maxElement x r < eps)%Q <-> (x < eps)%Q /\ Forall (fun y => (y < eps)%Q) r.
Proof.
  induction r as [|y r IH]; intros x; [unfold maxElement; cbn; split; [intros; split; [done|constructor]|tauto]|]. change (maxElement x (y :: r)) with (maxElement (if Qltb x y then y else x) r). rewrite IH, Forall_cons. destruct (Qltb x y) eqn:E.
  - apply Qltb_iff in E. split; [intros [H1 H2]; split; [lra|done]|tauto].
  - assert (~ (x < y)%Q) by (rewrite <- Qltb_iff; congruence). split; [intros [H1 H2]; split; [done|split; [lra|done]]|tauto].
Qed.
Lemma almost_ok v1 v2 eps : v1 <> [] -> exists b, AreAlmostEqual v1 v2 eps = Ok b /\ (b = true <-> Forall2 (fun x y => (Qabs (x - y) < eps)%Q) v1 v2).
Proof.
  intros Hne. unfold AreAlmostEqual. destruct (Z.eqb_spec (zlen v1) (zlen v2)) as [El|El]; cbn [negb].
  2:{ exists false. split; [done|]. split; [done|]. intros H. apply Forall2_length in H. unfold zlen in El. lia. }
  destruct v1 as [|x v1]; [done|]. destruct v2 as [|y v2]; [unfold zlen in El; cbn in El; lia|]. cbn [zip_with]. eexists. split; [reflexivity|]. rewrite Qltb_iff, maxElement_lt, Forall2_cons. apply and_iff_compat_l. clear Hne. assert (El' : length v1 = length v2) by (unfold zlen in El; cbn in El; lia). clear El. revert v2 El'. induction v1 as [|a v1 IH]; intros [|b v2] E; try done.
  { split; constructor. }
  cbn [zip_with]. rewrite Forall_cons, Forall2_cons, IH; [done|]. cbn in E. lia.
Qed.
Lemma isEqual_ok a b eps : plain a -> exists r, isEqualLoc a b eps = Ok r /\ (r = true <-> near_loc eps a b).
Proof.
  intros (H1 & H2 & H3). unfold isEqualLoc, near_loc. destruct (Z.eqb_spec (gl_type a) (gl_type b)) as [Et|Et]; cbn [negb]; [|exists false; split; [done|]; split; [done|tauto]].
  destruct (almost_ok _ (gl_ref b) eps H1) as (b1 & -> & E1). cbn [bind]. destruct b1; cbn [negb]; [|exists false; split; [done|]; split; [done|intros (_ & H & _); apply E1 in H; done]].
  destruct (almost_ok _ (gl_gauss b) eps H2) as (b2 & -> & E2). cbn [bind]. destruct b2; cbn [negb]; [|exists false; split; [done|]; split; [done|intros (_ & _ & H & _); apply E2 in H; done]].
  destruct (almost_ok _ (gl_w b) eps H3) as (b3 & -> & E3). exists b3. split; [done|]. rewrite E3. pose proof (proj1 E1 eq_refl). pose proof (proj1 E2 eq_refl). tauto.
Qed.
Lemma near_refl eps l : (0 < eps)%Q -> near_loc eps l l.
Proof.
  intros He. assert (H : forall v, Forall2 (fun x y => (Qabs (x - y) < eps)%Q) v v). { intros v. induction v as [|x v IH]; constructor; [|done]. setoid_replace (x - x)%Q with 0%Q by ring. done. }
  split; [done|]. split; [apply H|]. split; apply H.
Qed.

(** * Aggregation *)
Definition eps := (1 # 10000000000)%Q.
Definition apart (loc : list gloc) : Prop := forall i j a b, i < j -> loc @ i = Some a -> loc @ j = Some b -> ~ near_loc eps b a.
Lemma findLoc_ok l locs : plain l -> forall k0, exists k, findLoc l locs k0 = Ok (k0 + k) /\
  (k = zlen locs /\ (forall x, x ∈ locs -> ~ near_loc eps l x) \/ exists x, locs @ k = Some x /\ near_loc eps l x).
Proof.
  intros Hp. induction locs as [|x r IH]; intros k0.
  - exists 0. cbn [findLoc]. split; [f_equal; lia|]. left. split; [done|]. intros y Hy. by apply elem_of_nil in Hy.
  - cbn [findLoc]. destruct (isEqual_ok l x (1 # 10000000000) Hp) as (b & -> & Hb). cbn [bind]. destruct b.
    + exists 0. split; [f_equal; lia|]. right. exists x. split; [done|]. by apply Hb.
    + destruct (IH (k0 + 1)) as (k & -> & Hk). exists (k + 1). split; [f_equal; lia|]. destruct Hk as [[-> Hk]|(y & Hy & Hny)].
      * left. split; [rewrite zlen_cons; lia|]. intros y Hy. apply elem_of_cons in Hy as [->|Hy]; [|by apply Hk]. intros H. apply Hb in H. done.
      * right. exists y. split; [|done]. rewrite zlook_cons. apply zlook_Some_lt in Hy as ?. replace (k + 1 =? 0) with false by lia. replace (k + 1 - 1) with k by lia. done.
Qed.
Lemma transform_ok d ind : (forall v, v ∈ d -> 0 <= v < zlen ind) -> exists d', transformWithIndArr d ind = Ok d' /\ Forall2 (fun v v' => ind @ v = Some v') d d'.
Proof.
  intros Hv. unfold transformWithIndArr.
  match goal with |- context [forZ ?a ?b ?f ?s0] => assert (W : wp (forZ a b f s0) (fun s => Forall2 (fun v v' => ind @ v = Some v') d s) False) end; [|apply wp_ok in W as (d' & -> & HF); eauto].
  apply (wp_forZ (fun i s => exists x, s = x ++ drop (Z.to_nat i) d /\ Forall2 (fun v v' => ind @ v = Some v') (take (Z.to_nat i) d) x)).
  - apply zlen_nonneg.
  - exists []. split; [done|constructor].
  - intros i s Hi (x & -> & HF). pose proof (Forall2_length _ _ _ HF) as Hlx. rewrite take_length in Hlx. unfold zlen in Hi. assert (Hx : zlen x = i) by (unfold zlen; lia).
    destruct (zlook_lt d i ltac:(unfold zlen; lia)) as [v Hd]. rewrite zlook_to_nat in Hd by lia. rewrite (drop_S _ _ _ Hd). assert (E1 : (x ++ v :: drop (S (Z.to_nat i)) d) @ i = Some v) by (rewrite zlook_app_r by lia; rewrite Hx, Z.sub_diag; done). rewrite (rd_ok _ _ _ E1). cbn [bind].
    assert (Hvr : 0 <= v < zlen ind) by (apply Hv; eapply elem_of_list_lookup_2; exact Hd). replace ((0 <=? v) && (v <? zlen ind)) with true by lia. destruct (zlook_lt ind v Hvr) as [w Hw]. rewrite (rd_ok _ _ _ Hw). cbn [bind]. rewrite wr_ok by (rewrite zlen_app, zlen_cons; pose proof (zlen_nonneg (drop (S (Z.to_nat i)) d)); lia). cbn [wp].
    exists (x ++ [w]). replace (Z.to_nat (i + 1)) with (S (Z.to_nat i)) by lia. split.
    + unfold zset. replace (Z.to_nat i) with (length x) by lia. rewrite insert_app_r_alt by lia. replace (length x - length x)%nat with O by lia. cbn. rewrite <- app_assoc. done.
    + rewrite (take_S_r _ _ _ Hd). apply Forall2_app; [done|]. repeat constructor. done.
  - intros s (x & -> & HF). unfold zlen in *. rewrite Nat2Z.id in *. rewrite drop_all, app_nil_r. rewrite take_ge in HF by lia. done.
Qed.
Lemma transform_throw d ind v : v ∈ d -> ~ 0 <= v < zlen ind -> transformWithIndArr d ind = Throw.
Proof.
  intros Hin Hv. unfold transformWithIndArr. apply elem_of_zlook in Hin as (c & Hc).
  match goal with |- context [forZ ?a ?b ?f ?s0] => assert (W : wp (forZ a b f s0) (fun s => False) True) end.
  { apply (wp_forZ (fun i s => i <= c /\ zlen s = zlen d /\ forall j, i <= j -> s @ j = d @ j)).
    - apply zlen_nonneg.
    - apply zlook_Some_lt in Hc as ?. split; [lia|]. done.
    - intros i s Hi (H1 & H2 & H3). destruct (zlook_lt d i ltac:(lia)) as [x Hx]. rewrite (rd_ok s i x) by (rewrite H3; [done|lia]). cbn [bind]. destruct ((0 <=? x) && (x <? zlen ind)) eqn:E; [|done]. destruct (zlook_lt ind x ltac:(lia)) as [w Hw]. rewrite (rd_ok _ _ _ Hw). cbn [bind]. rewrite wr_ok by lia. cbn [wp]. destruct (decide (i = c)) as [->|]; [assert (x = v) by congruence; subst x; lia|]. split; [lia|]. split; [by rewrite zlen_zset|]. intros j Hj. rewrite zlook_zset by lia. replace (j =? i) with false by lia. apply H3. lia.
    - intros s (H1 & _). apply zlook_Some_lt in Hc. lia. }
  destruct (forZ _ _ _ _) as [?| | |]; done.
Qed.

Definition moved (loc : list gloc) (g : gauss) (d : list Z) : Prop :=
  exists dpc, gd_dpc g = Some dpc /\ Forall2 (fun id id' => exists l l', gd_loc g @ id = Some l /\ loc @ id' = Some l' /\ near_loc eps l l') dpc d.
Lemma moved_app loc more g d : moved loc g d -> moved (loc ++ more) g d.
Proof.
  intros (dpc & E & HF). exists dpc. split; [done|]. eapply Forall2_impl; [exact HF|]. intros id id' (l & l' & H1 & H2 & H3). exists l, l'. split; [done|]. split; [|done]. apply zlook_Some_lt in H2 as ?. rewrite zlook_app_l by lia. done.
Qed.
Lemma apart_snoc loc l : apart loc -> (forall x, x ∈ loc -> ~ near_loc eps l x) -> apart (loc ++ [l]).
Proof.
  intros Ha Hl i j a b Hij Hi Hj. apply zlook_Some_lt in Hi as ?. apply zlook_Some_lt in Hj as Hr. rewrite zlen_app in Hr. change (zlen [l]) with 1 in Hr. rewrite zlook_app_l in Hi by lia. destruct (decide (j < zlen loc)).
  - rewrite zlook_app_l in Hj by lia. by apply (Ha i j).
  - rewrite zlook_app_r in Hj by lia. replace (j - zlen loc) with 0 in Hj by lia. injection Hj as <-. apply Hl. eapply zlook_elem. exact Hi.
Qed.
Lemma inner_ok loc0 (ls : list gloc) : apart loc0 -> Forall plain ls -> exists more ids,
  foldM (fun '(loc, newLocId) l => let* k := findLoc l loc 0 in Ok (if k =? zlen loc then loc ++ [l] else loc, newLocId ++ [k])) ls (loc0, []) = Ok (loc0 ++ more, ids) /\
  apart (loc0 ++ more) /\ (forall x, x ∈ more -> x ∈ ls) /\ Forall2 (fun l k => exists l', (loc0 ++ more) @ k = Some l' /\ near_loc eps l l') ls ids.
Proof.
  intros Ha Hp. match goal with |- context [foldM ?f ls ?s0] => assert (W : wp (foldM f ls s0) (fun s => exists more, s.1 = loc0 ++ more /\ apart (loc0 ++ more) /\ (forall x, x ∈ more -> x ∈ ls) /\ Forall2 (fun l k => exists l', (loc0 ++ more) @ k = Some l' /\ near_loc eps l l') ls s.2) False) end.
  { apply (wp_foldM _ (fun pre s => exists more, s.1 = loc0 ++ more /\ apart (loc0 ++ more) /\ (forall x, x ∈ more -> x ∈ pre) /\ Forall2 (fun l k => exists l', (loc0 ++ more) @ k = Some l' /\ near_loc eps l l') pre s.2)).
    - exists []. cbn [fst snd]. rewrite app_nil_r. split; [done|]. split; [done|]. split; [done|constructor].
    - intros pre l post [loc ids] El (more & E & Hapart & Hin & HF). cbn [fst snd] in *. subst loc. assert (Hl : plain l) by (eapply Forall_forall; [exact Hp|]; rewrite El; apply elem_of_app; right; left).
      destruct (findLoc_ok l (loc0 ++ more) Hl 0) as (k & -> & Hk). cbn [bind]. rewrite Z.add_0_l. destruct Hk as [[-> Hk]|(x & Hx & Hnx)].
      + rewrite Z.eqb_refl. cbn [wp]. exists (more ++ [l]). cbn [fst snd]. rewrite app_assoc. split; [done|]. split; [by apply apart_snoc|]. split.
        * intros x Hx. apply elem_of_app in Hx as [Hx|Hx]; apply elem_of_app; [left; by apply Hin|by right].
        * apply Forall2_app.
          -- eapply Forall2_impl; [exact HF|]. intros a b (l' & Hb & Hn). exists l'. split; [|done]. apply zlook_Some_lt in Hb as ?. rewrite zlook_app_l by lia. done.
          -- repeat constructor. exists l. split; [rewrite zlook_app_r by lia; by rewrite Z.sub_diag|by apply near_refl].
      + apply zlook_Some_lt in Hx as Hr. replace (k =? zlen (loc0 ++ more)) with false by lia. cbn [wp]. exists more. cbn [fst snd]. split; [done|]. split; [done|]. split; [intros y Hy; apply elem_of_app; left; by apply Hin|]. apply Forall2_app; [done|]. repeat constructor. eauto.
    - intros s H. exact H. }
  apply wp_ok in W as ([loc ids] & -> & more & E & H). cbn [fst snd] in *. subst loc. exists more, ids. done.
Qed.

Lemma aggregate_gauss_ok fds : (forall g l, g ∈ fds -> l ∈ gd_loc g -> plain l) ->
  (exists r dpc, aggregateGauss fds = Ok r /\ fds <> [] /\ Forall complete fds /\ gd_dpc r = Some dpc /\ apart (gd_loc r) /\ (forall l, l ∈ gd_loc r -> exists g, g ∈ fds /\ l ∈ gd_loc g) /\
     exists ds, dpc = concat ds /\ Forall2 (moved (gd_loc r)) fds ds) \/
  aggregateGauss fds = Throw /\ (fds = [] \/ ~ Forall complete fds).
Proof.
  intros Hp. unfold aggregateGauss. destruct fds as [|g0 rest]; [right; split; [done|by left]|]. set (fds := g0 :: rest) in *.
  match goal with |- context [foldM ?f fds ?s0] => assert (W : wp (foldM f fds s0) (fun s => Forall complete fds /\ apart s.1 /\ (forall l, l ∈ s.1 -> exists g, g ∈ fds /\ l ∈ gd_loc g) /\ Forall2 (moved s.1) fds s.2) (~ Forall complete fds)) end.
  { apply (wp_foldM _ (fun pre s => Forall complete pre /\ apart s.1 /\ (forall l, l ∈ s.1 -> exists g, g ∈ pre /\ l ∈ gd_loc g) /\ Forall2 (moved s.1) pre s.2)).
    - cbn [fst snd]. split; [constructor|]. split; [intros ? ? ? ? _ H; by rewrite zlook_nil in H|]. split; [intros l Hl; by apply elem_of_nil in Hl|constructor].
    - intros pre g post [loc ds] El (Hc & Ha & Hin & HF). cbn [fst snd] in *. assert (Hg : g ∈ fds) by (rewrite El; apply elem_of_app; right; left).
      destruct (inner_ok loc (gd_loc g) Ha) as (more & ids & -> & Ha' & Hm & HF2); [apply Forall_forall; intros l Hl; by apply (Hp g)|]. cbn [bind]. pose proof (Forall2_length _ _ _ HF2) as Hlen.
      destruct (gd_dpc g) as [dpc|] eqn:Hd; [|cbn [wp]; intros H; rewrite Forall_forall in H; destruct (H g Hg) as (? & ? & _); congruence].
      destruct (decide (Forall (fun id => 0 <= id < zlen (gd_loc g)) dpc)) as [Hall|Hall].
      + destruct (transform_ok dpc ids) as (d' & -> & HF3); [intros v Hv; rewrite Forall_forall in Hall; specialize (Hall v Hv); unfold zlen in *; lia|]. cbn [bind wp fst snd]. split; [|split; [done|split]].
        * apply Forall_app. split; [done|]. repeat constructor. exists dpc. split; [done|]. by apply Forall_forall.
        * intros l Hl. apply elem_of_app in Hl as [Hl|Hl]; [destruct (Hin l Hl) as (g' & ? & ?); exists g'; split; [apply elem_of_app; by left|done]|]. exists g. split; [apply elem_of_app; right; left|by apply Hm].
        * apply Forall2_app; [eapply Forall2_impl; [exact HF|]; intros; by apply moved_app|]. repeat constructor. exists dpc. split; [done|]. rewrite Forall_forall in Hall. clear - HF2 HF3 Hall.
          assert (Hall' : forall v, v ∈ dpc -> 0 <= v < zlen (gd_loc g)) by done. clear Hall. induction HF3 as [|v v' dpc d' Hv HF3 IH]; constructor; [|apply IH; intros; apply Hall'; by right]. destruct (zlook_lt (gd_loc g) v (Hall' v ltac:(left))) as [l Hl]. specialize (Hall' v ltac:(left)). rewrite zlook_to_nat in Hl by lia. destruct (Forall2_lookup_l _ _ _ _ _ HF2 Hl) as (k & Hk & l' & Hl' & Hn). rewrite zlook_to_nat in Hv by lia. rewrite Hk in Hv. injection Hv as <-. exists l, l'. split; [rewrite zlook_to_nat by lia; done|done].
      + apply not_Forall_Exists in Hall; [|apply _]. apply Exists_exists in Hall as (v & Hv & Hvr). rewrite (transform_throw dpc ids v Hv) by (assert (Hvr2 : ~ 0 <= v < zlen (gd_loc g)) by exact Hvr; unfold zlen in *; lia). cbn [bind wp]. intros H. rewrite Forall_forall in H. destruct (H g Hg) as (dpc' & E' & H'). rewrite Hd in E'. injection E' as <-. apply Hvr, H', Hv.
    - intros s H. exact H. }
  match goal with |- context [foldM ?f fds ?s0] => destruct (foldM f fds s0) as [[loc ds]| | |] end; cbn [wp fst snd] in W; try done; [|right; split; [done|by right]]. destruct W as (Hc & Ha & Hin & HF). cbn [bind].
  left. assert (Hne : ds <> []) by (intros ->; inversion HF).
  assert (Eo : omap id ((fun d => Some (vec d)) <$> ds) = vec <$> ds) by (clear; induction ds as [|d ds IH]; [done|cbn; by f_equal]).
  rewrite (aggregate_ok _ 1). 2:{ rewrite Eo. intros E. by apply fmap_nil_inv in E. } 2:{ intros d Hd. apply elem_of_list_fmap in Hd as (x & [= ->] & _). split; [apply da_wf_vec|done]. }
  rewrite Eo. cbn [bind da_vals]. rewrite <- list_fmap_compose. 
  exists (GD (Some (concat ds)) loc), (concat ds). split; [|split; [done|split; [done|split; [done|split; [done|split; [done|]]]]]]; [|exists ds; done].
  replace (da_vals ∘ vec <$> ds) with ds by (clear; induction ds as [|d ds IH]; [done|cbn; by f_equal]). rewrite initialised_ok. done.
Qed.

Lemma moved_len loc g d : moved loc g d -> ncells g = zlen d.
Proof. intros (dpc & E & HF). unfold ncells. rewrite E. unfold zlen. by rewrite (Forall2_length _ _ _ HF). Qed.
Lemma aggregate_final fds : (forall g l, g ∈ fds -> l ∈ gd_loc g -> plain l) ->
  (exists r, aggregateGauss fds = Ok r /\ fds <> [] /\ Forall complete fds /\ complete r /\ ncells r = zsum (ncells <$> fds) /\
     (forall k g c l, fds @ k = Some g -> loc_of g c = Some l -> exists l', loc_of r (zsum (ncells <$> take (Z.to_nat k) fds) + c) = Some l' /\ near_loc (1 # 10000000000) l l') /\
     (forall l, l ∈ gd_loc r -> exists g, g ∈ fds /\ l ∈ gd_loc g) /\
     (forall i j a b, i < j -> gd_loc r @ i = Some a -> gd_loc r @ j = Some b -> ~ near_loc (1 # 10000000000) b a)) \/
  aggregateGauss fds = Throw /\ (fds = [] \/ ~ Forall complete fds).
Proof.
  intros Hp. destruct (aggregate_gauss_ok fds Hp) as [(r & dpc & E & Hne & Hc & Hd & Ha & Hin & ds & Eds & HF)|H]; [left|by right]. exists r. split; [done|]. split; [done|]. split; [done|].
  assert (Hsum : forall fds ds, Forall2 (moved (gd_loc r)) fds ds -> zsum (ncells <$> fds) = zlen (concat ds)).
  { intros fs xs HF'. induction HF' as [|g d fs xs Hm HF' IH]; [done|]. rewrite fmap_cons. change (zsum (ncells g :: (ncells <$> fs))) with (ncells g + zsum (ncells <$> fs)). cbn [concat]. rewrite zlen_app, IH, (moved_len _ _ _ Hm). done. }
  split; [|split; [|split; [|split; [exact Hin|exact Ha]]]].
  - exists dpc. split; [done|]. intros id Hid. subst dpc. apply elem_concat in Hid as (d & Hid & Hd'). apply elem_of_list_lookup in Hd' as (k & Hk). destruct (Forall2_lookup_r _ _ _ _ _ HF Hk) as (g & _ & dp & _ & HF2). apply elem_of_list_lookup in Hid as (j & Hj). destruct (Forall2_lookup_r _ _ _ _ _ HF2 Hj) as (v & _ & l & l' & _ & Hl' & _). apply zlook_Some_lt in Hl'. done.
  - unfold ncells at 1. rewrite Hd, Eds. symmetry. by apply Hsum.
  - intros k g c l Hg Hl. apply zlook_Some_lt in Hg as Hkr. rewrite zlook_to_nat in Hg by lia. destruct (Forall2_lookup_l _ _ _ _ _ HF Hg) as (d & Hdk & dp & Edp & HF2). unfold loc_of in Hl. rewrite Edp in Hl. destruct (dp @ c) as [id|] eqn:Hid; [|done]. apply zlook_Some_lt in Hid as Hcr. rewrite zlook_to_nat in Hid by lia. destruct (Forall2_lookup_l _ _ _ _ _ HF2 Hid) as (id' & Hid' & l0 & l' & Hl0 & Hl' & Hn). rewrite Hl in Hl0. injection Hl0 as <-. exists l'. split; [|done].
    unfold loc_of. rewrite Hd, Eds. rewrite (Hsum (take (Z.to_nat k) fds) (take (Z.to_nat k) ds)) by (by apply Forall2_take).
    replace (concat ds) with (concat (take (Z.to_nat k) ds) ++ d ++ concat (drop (Datatypes.S (Z.to_nat k)) ds)).
    2:{ rewrite <- (take_drop (Z.to_nat k) ds) at 3. rewrite concat_app. f_equal. rewrite (drop_S _ _ _ Hdk). done. }
    rewrite zlook_app_r by lia. replace (zlen (concat (take (Z.to_nat k) ds)) + c - zlen (concat (take (Z.to_nat k) ds))) with c by lia. assert (Hl2 : zlen d = zlen dp) by (unfold zlen; by rewrite (Forall2_length _ _ _ HF2)). rewrite zlook_app_l by lia. rewrite zlook_to_nat by lia. rewrite Hid'. done.
Qed.
