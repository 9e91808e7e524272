From Verif Require Import Base DataArray ArrLib SlicesSpec SlicesModel SlicesProofs RenumSpec RenumModel RenumProofs SearchSpec StdModel StdProofs SearchProofs IndexSpec IndexModel FillLib IndexProofs IndexProofs2 IndexProofs3 IndexProofs4 IndexProofs5 LayoutModel SkyModel SkySpec SkyProofs SkyProofs2 SkyProofs3 SkyProofs4 SkyProofs5 SkyProofs6.
From Coq Require Import ZifyBool ZifyNat.

Fixpoint ends (o : Z) (l : list Z) : list Z := match l with [] => [] | n :: l => o + n :: ends (o + n) l end.
Lemma offs_ends o l : offs o l = o :: ends o l.
Proof. revert o. induction l as [|n l IH]; intros o; [done|]. cbn [offs ends]. by rewrite IH. Qed.
Lemma offs_app_ends o a b : offs o (a ++ b) = offs o a ++ ends (o + zsum a) b.
Proof. revert o. induction a as [|n a IH]; intros o; [rewrite Z.add_0_r; apply offs_ends|]. cbn [app offs]. rewrite IH, zsum_cons, Z.add_assoc. done. Qed.
Lemma offs_heads o l : offs o l = heads o l ++ [o + zsum l].
Proof. pose proof (offs_app o l []) as H. by rewrite app_nil_r in H. Qed.
Lemma heads_snoc o l x : heads o (l ++ [x]) = heads o l ++ [o + zsum l].
Proof. revert o. induction l as [|n l IH]; intros o; [cbn; by rewrite Z.add_0_r|]. cbn [app heads]. rewrite IH, zsum_cons, Z.add_assoc. done. Qed.
Lemma joined_cons p q qs : faces_joined (p :: q :: qs) = p ++ -1 :: faces_joined (q :: qs).
Proof. done. Qed.
Lemma joined_len p qs : zlen (faces_joined (p :: qs)) = zlen (concat (p :: qs)) + zlen qs.
Proof.
  revert p. induction qs as [|q qs IH]; intros p; [simpl; rewrite app_nil_r, zlen_nil; lia|]. rewrite joined_cons, zlen_app, zlen_cons, IH, zlen_cons.
  change (concat (p :: q :: qs)) with (p ++ concat (q :: qs)). rewrite zlen_app. lia.
Qed.
Lemma find_stop (p r : list Z) : -1 ∉ p -> list_find (eq (-1)) (p ++ -1 :: r) = Some (length p, -1).
Proof.
  induction p as [|x p IH]; intros H.
  - cbn [app list_find]. rewrite decide_True by done. done.
  - cbn [app list_find]. rewrite decide_False by set_solver. rewrite IH by set_solver. done.
Qed.
Lemma find_none (p : list Z) : -1 ∉ p -> list_find (eq (-1)) p = None.
Proof. induction p as [|x p IH]; intros H; [done|]. cbn [list_find]. rewrite decide_False by set_solver. rewrite IH by set_solver. done. Qed.
Lemma findMinus1_ok (L p R : list Z) qs w e : w = zlen L -> e = zlen L + zlen (faces_joined (p :: qs)) -> -1 ∉ p ->
  findMinus1 (L ++ faces_joined (p :: qs) ++ R) w e = Ok (zlen L + zlen p).
Proof.
  intros -> -> Hp. unfold findMinus1. rewrite save_mid by done. cbn [bind]. destruct qs as [|q qs].
  - simpl. rewrite find_none by done. done.
  - rewrite joined_cons, find_stop by done. done.
Qed.

(** One cell. *)
Definition cellLoop (c : list Z) (e : Z) (fuel : nat) (w w2 : Z) (ix vals : list Z) (cnt cnt2 : Z) : res (Z * Z * list Z * list Z * Z * Z) :=
  whileM fuel (fun '(_, w2, _, _, _, _) => Ok (negb (w2 =? e))) (fun '(w, w2, ix, vals, cnt, cnt2) =>
      let* vals := copyv c w w2 vals cnt in
      let cnt := cnt + (w2 - w) in
      let* w2' := findMinus1 c (w2 + 1) e in
      Ok (w2 + 1, w2', ix ++ [cnt], vals, cnt, cnt2 + 1)) (w, w2, ix, vals, cnt, cnt2).
Lemma cell_ok c e R qs : forall fuel p L V G ix cnt2 w w2, (length qs < fuel)%nat -> (forall f, f ∈ p :: qs -> -1 ∉ f) ->
  c = L ++ faces_joined (p :: qs) ++ R -> w = zlen L -> w2 = zlen L + zlen p -> e = zlen L + zlen (faces_joined (p :: qs)) -> zlen (concat (p :: qs)) <= zlen G ->
  (let* (w, _, ix, vals, cnt, cnt2) := cellLoop c e fuel w w2 ix (V ++ G) (zlen V) cnt2 in
   let* vals := copyv c w e vals cnt in Ok (ix ++ [cnt + (e - w)], vals, cnt + (e - w), cnt2 + 1)) =
  Ok (ix ++ ends (zlen V) (zlen <$> (p :: qs)), V ++ concat (p :: qs) ++ drop (Z.to_nat (zlen (concat (p :: qs)))) G, zlen V + zlen (concat (p :: qs)), cnt2 + zlen (p :: qs)).
Proof.
  induction qs as [|q qs IH]; intros fuel p L V G ix cnt2 w w2 Hf Hno Hc -> -> He HG; (destruct fuel as [|fuel]; [simpl in Hf; lia|]).
  - unfold cellLoop. cbn [whileM bind]. simpl faces_joined in *. change (concat [p]) with (p ++ []) in *. rewrite app_nil_r in *. rewrite He, Z.eqb_refl. cbn [negb bind].
    pose proof (zlen_nonneg L). pose proof (zlen_nonneg p). pose proof (zlen_nonneg R).
    rewrite <- (take_drop (Z.to_nat (zlen p)) G) at 1. rewrite copyv_ok by (rewrite ?Hc, ?zlen_app, ?zlen_take; lia). cbn [bind].
    rewrite Hc, sub_mid by done. simpl. replace (zlen L + zlen p - zlen L) with (zlen p) by lia. done.
  - unfold cellLoop. cbn [whileM bind]. rewrite joined_cons in *. rewrite zlen_app, zlen_cons in He.
    pose proof (zlen_nonneg L). pose proof (zlen_nonneg p). pose proof (zlen_nonneg R). pose proof (zlen_nonneg (faces_joined (q :: qs))).
    change (concat (p :: q :: qs)) with (p ++ concat (q :: qs)) in *. rewrite zlen_app in *. pose proof (zlen_nonneg (concat (q :: qs))).
    replace (zlen L + zlen p =? e) with false by lia. cbn [negb].
    rewrite <- (take_drop (Z.to_nat (zlen p)) G) at 1. rewrite copyv_ok by (rewrite ?Hc, ?zlen_app, ?zlen_cons, ?zlen_take; lia). cbn [bind].
    assert (sub c (zlen L) (zlen L + zlen p) = p) as -> by (rewrite Hc, <- app_assoc; by apply sub_mid).
    assert (c = (L ++ p ++ [-1]) ++ faces_joined (q :: qs) ++ R) as Hc2 by (rewrite Hc, <- !app_assoc; done).
    assert (zlen (L ++ p ++ [-1]) = zlen L + zlen p + 1) as HL2 by (rewrite !zlen_app; change (zlen [-1]) with 1; lia).
    rewrite Hc2 at 1. rewrite findMinus1_ok by (lia || (apply Hno; set_solver)). cbn [bind].
    set (G2 := drop (Z.to_nat (zlen p)) G). assert (zlen G2 = zlen G - zlen p) as HG2 by (unfold G2; rewrite zlen_drop; lia).
    specialize (IH fuel q (L ++ p ++ [-1]) (V ++ p) G2 (ix ++ [zlen V + zlen p]) (cnt2 + 1) (zlen L + zlen p + 1) (zlen (L ++ p ++ [-1]) + zlen q)).
    unfold cellLoop in IH. rewrite (zlen_app V p) in IH. rewrite <- (app_assoc V p) in IH. replace (zlen L + zlen p - zlen L) with (zlen p) by lia. rewrite IH; [|simpl in Hf; lia|intros f Hf'; apply Hno; set_solver|done|lia|done|lia|lia].
    assert (drop (Z.to_nat (zlen (concat (q :: qs)))) G2 = drop (Z.to_nat (zlen p + zlen (concat (q :: qs)))) G) as -> by (unfold G2; rewrite drop_drop; f_equal; lia).
    rewrite (fmap_cons zlen p). cbn [ends]. rewrite <- !app_assoc. rewrite (zlen_cons p).
    replace (zlen V + zlen p + zlen (concat (q :: qs))) with (zlen V + (zlen p + zlen (concat (q :: qs)))) by lia.
    replace (cnt2 + 1 + zlen (q :: qs)) with (cnt2 + (1 + zlen (q :: qs))) by lia. done.
Qed.

Lemma Ok4_inj {A B C D} (a a' : A) (b b' : B) (c c' : C) (d d' : D) : Ok (a, b, c, d) = Ok (a', b', c', d') -> a = a' /\ b = b' /\ c = c' /\ d = d'.
Proof. intros H. injection H as -> -> -> ->. done. Qed.
Lemma poly_len p qs : zlen (poly_cell (p :: qs)) = zlen (concat (p :: qs)) + zlen (p :: qs).
Proof. unfold poly_cell. rewrite zlen_cons, joined_len, zlen_cons. lia. Qed.
Lemma sky2_offs ps : sky2 ps (Sky [] (offs 0 (zlen <$> ps)) (concat ps)).
Proof. rewrite <- psums_offs. apply sky2_psums. Qed.
Lemma concat_concat_app {A} (a b : list (list (list A))) : concat (concat (a ++ b)) = concat (concat a) ++ concat (concat b).
Proof. by rewrite !concat_app. Qed.
Lemma concat_short (pss : list (list (list Z))) : (forall qs, qs ∈ pss -> qs <> []) -> zlen (concat (concat pss)) <= zlen (concat (poly_cell <$> pss)).
Proof.
  induction pss as [|qs pss IH]; intros H; [done|]. change (concat (qs :: pss)) with (qs ++ concat pss). rewrite concat_app, fmap_cons.
  change (concat (poly_cell qs :: (poly_cell <$> pss))) with (poly_cell qs ++ concat (poly_cell <$> pss)). rewrite !zlen_app. specialize (IH ltac:(intros; apply H; set_solver)).
  destruct qs as [|p qs]; [exfalso; by apply (H []); [set_solver|]|]. rewrite poly_len. pose proof (zlen_nonneg (p :: qs)). lia.
Qed.
Lemma build_ok pss : (forall qs, qs ∈ pss -> qs <> []) -> (forall qs f, qs ∈ pss -> f ∈ qs -> -1 ∉ f) ->
  exists s, BuildFromPolyhedronConn (concat (poly_cell <$> pss)) (offs 0 (zlen <$> (poly_cell <$> pss))) = Ok s /\ exact3 pss s.
Proof.
  intros Hne Hno. set (cells := poly_cell <$> pss). set (c := concat cells). set (cI := offs 0 (zlen <$> cells)).
  pose proof (sky2_offs cells) as Hs. fold c cI in Hs. pose proof (len2 _ _ Hs) as Hl. simpl in Hl.
  assert (zlen cells = zlen pss) as Hcl by (unfold cells; by rewrite zlen_fmap). pose proof (zlen_nonneg pss).
  unfold BuildFromPolyhedronConn. rewrite Hl, Hcl. replace (zlen pss + 1 - 1) with (zlen pss) by lia.
  assert (cI @ zlen pss = Some (zlen c)) as Hlast. { unfold cI. rewrite <- psums_offs, <- Hcl, <- (zlen_fmap zlen cells), psums_end. unfold c. by rewrite zlen_concat. }
  rewrite (rd_ok _ _ _ Hlast). cbn [bind]. rewrite Z.eqb_refl. cbn [negb ifthrow].
  assert (forall k b, cells @ k = Some b -> exists a, cI @ k = Some a /\ cI @ (k + 1) = Some (a + zlen b) /\ c @ a = Some 31) as Hk.
  { intros k b Hb. destruct (agg_pack _ _ _ _ Hs Hb) as (a & H0 & H1 & Ha & Hle & Hsub). simpl in *. exists a. split; [done|]. split; [done|].
    unfold cells in Hb. rewrite zlook_fmap in Hb. destruct (pss @ k) as [qs|]; [|done]. injection Hb as <-. unfold poly_cell in *. rewrite zlen_cons in *. pose proof (zlen_nonneg (faces_joined qs)).
    replace a with (a + 0) by lia. rewrite <- (zlook_sub c a (a + (1 + zlen (faces_joined qs))) 0) by lia. by rewrite Hsub. }
  match goal with |- exists s, (let* _ := ?prog in _) = _ /\ _ => assert (exists v, prog = Ok v) as [v0 ->] end.
  { match goal with |- exists v, ?prog = _ => enough (Hw : wp prog (fun _ => True) False) by (apply wp_ok in Hw as (v & Hv & _); by exists v) end.
    apply (wp_forZ (fun i prev => forall j, cI @ i = Some j -> prev <= j)); [lia| | |done].
    - intros j Hj. unfold cI in Hj. rewrite offs_hd in Hj. injection Hj as <-. lia.
    - intros i prev Hi Hp. destruct (zlook_lt cI i) as [j Hj]; [lia|]. rewrite (rd_ok _ _ _ Hj). cbn [bind]. specialize (Hp j Hj). replace (j <? prev) with false by lia. cbn [ifthrow].
      destruct (i =? zlen pss) eqn:E; cbn [negb].
      + simpl. intros j' Hj'. apply zlook_Some_lt in Hj'. lia.
      + destruct (zlook_lt cells i) as [b Hb]; [lia|]. destruct (Hk i b Hb) as (a & H0 & H1 & H2). assert (j = a) as -> by congruence. rewrite (rd_ok _ _ _ H2). cbn [bind].
        change (31 =? NORM_POLYHED) with true. cbn [negb ifthrow wp]. intros j' Hj'. rewrite H1 in Hj'. injection Hj' as <-. pose proof (zlen_nonneg b). lia. }
  cbn [bind]. pose proof (concat_short pss Hne) as Hshort. fold cells in Hshort. fold c in Hshort.
  pose (st := fun pre : list (list (list Z)) => (offs 0 (zlen <$> pre), offs 0 (zlen <$> concat pre), concat (concat pre) ++ drop (Z.to_nat (zlen (concat (concat pre)))) (replicate (length c) 0), zlen (concat (concat pre)), zlen (concat pre))).
  change ([0], [0], replicate (length c) 0, 0, 0) with (st []).
  rewrite (forZ_blocks _ st (zlen pss) pss eq_refl).
  2: { intros pre qs post E. unfold st.
    assert (cells @ zlen pre = Some (poly_cell qs)) as Hb by (unfold cells; rewrite zlook_fmap, E, zlook_app_r, Z.sub_diag by lia; done).
    destruct (agg_pack _ _ _ _ Hs Hb) as (a & H0 & H1 & Ha & Hle & Hsub). simpl in H0, H1, Hle, Hsub. rewrite (rd_ok _ _ _ H0), (rd_ok _ _ _ H1). cbn [bind].
    destruct qs as [|p qs]; [exfalso; apply (Hne []); [rewrite E; set_solver|done]|].
    assert (a = zlen (concat (poly_cell <$> pre))) as ->.
    { unfold cI, cells in H0. rewrite E, (fmap_app poly_cell), (fmap_app zlen), offs_app, zlook_app_r in H0 by (rewrite heads_len, !zlen_fmap; lia). rewrite heads_len, !zlen_fmap, Z.sub_diag, offs_hd in H0.
      injection H0 as <-. by rewrite zlen_concat. }
    set (L := concat (poly_cell <$> pre) ++ [31]). set (R := concat (poly_cell <$> post)).
    assert (c = L ++ faces_joined (p :: qs) ++ R) as Hc.
    { unfold c, cells, L, R. rewrite E, (fmap_app poly_cell), concat_app, fmap_cons. rewrite <- app_assoc. done. }
    assert (zlen (concat (poly_cell <$> pre)) + 1 = zlen L) as HL by (unfold L; rewrite zlen_app; done). rewrite HL.
    assert (zlen (concat (poly_cell <$> pre)) + zlen (poly_cell (p :: qs)) = zlen L + zlen (faces_joined (p :: qs))) as HE by (change (poly_cell (p :: qs)) with (31 :: faces_joined (p :: qs)); rewrite (zlen_cons 31); lia). rewrite HE.
    rewrite Hc at 1. rewrite findMinus1_ok by (done || (apply (Hno (p :: qs)); rewrite ?E; set_solver)). cbn [bind].
    pose proof (cell_ok c (zlen L + zlen (faces_joined (p :: qs))) R qs (Datatypes.S (length c)) p L (concat (concat pre)) (drop (Z.to_nat (zlen (concat (concat pre)))) (replicate (length c) 0)) (offs 0 (zlen <$> concat pre)) (zlen (concat pre)) (zlen L) (zlen L + zlen p)) as Hcell.
    assert (zlen (concat (concat pss)) = zlen (concat (concat pre)) + zlen (concat (p :: qs)) + zlen (concat (concat post))) as Htot.
    { rewrite E, concat_concat_app. change (concat ((p :: qs) :: post)) with ((p :: qs) ++ concat post). rewrite concat_app, !zlen_app. lia. }
    pose proof (zlen_nonneg (concat (concat pre))). pose proof (zlen_nonneg (concat (concat post))).
    assert (zlen (concat (p :: qs)) <= zlen (drop (Z.to_nat (zlen (concat (concat pre)))) (replicate (length c) 0))) as Hroom.
    { rewrite zlen_drop. assert (zlen (replicate (length c) 0) = zlen c) as -> by (unfold zlen; by rewrite replicate_length). lia. }
    assert (length qs < Datatypes.S (length c))%nat as Hfuel.
    { pose proof (joined_len p qs) as Hj. pose proof (zlen_nonneg (concat (p :: qs))). assert (zlen qs <= zlen c) by (rewrite Hc, !zlen_app; pose proof (zlen_nonneg L); pose proof (zlen_nonneg R); lia). unfold zlen in *. lia. }
    specialize (Hcell Hfuel (fun f Hf => Hno (p :: qs) f ltac:(rewrite E; set_solver) Hf) Hc eq_refl eq_refl eq_refl Hroom). unfold cellLoop in Hcell.
    match type of Hcell with (let* _ := ?lp in _) = _ => destruct lp as [[[[[[w' w2'] ix'] vals'] cnt'] cnt2']| | |] end; cbn [bind] in Hcell; try done.
    cbn [bind]. destruct (copyv c w' _ vals' cnt') as [vals2| | |]; cbn [bind] in *; try done. apply Ok4_inj in Hcell as (H5 & H6 & H7 & H8). rewrite H5, H6, H7, H8.
    rewrite fmap_snoc, offs_snoc. rewrite !Z.add_0_l. rewrite concat_snoc, concat_app, (fmap_app zlen (concat pre)), offs_app_ends, !zlen_app, Z.add_0_l, <- !zlen_concat. rewrite <- app_assoc, drop_drop.
    rewrite Z2Nat.inj_add by apply zlen_nonneg. done. }
  cbn [bind]. unfold st. set (v := concat (concat pss)).
  pose proof (save_mid [] v (drop (Z.to_nat (zlen v)) (replicate (length c) 0)) 0 (zlen v) eq_refl) as Hsv. rewrite app_nil_l in Hsv. rewrite Hsv by done. cbn [bind].
  eexists. split; [done|]. split; [done|]. split; done.
Qed.

(** Converting to the connectivity. *)
Definition cst (m : Z) (done : list Z) : list (option Z) := (Some <$> done) ++ malloc Z (m - zlen done).
Lemma cst_wr m d p x : zlen d < m -> p = zlen d -> wrc (cst m d) p x = Ok (cst m (d ++ [x])).
Proof. intros H ->. unfold cst. rewrite wrc_fill by (done || lia). rewrite zlen_app. change (zlen [x]) with 1. by rewrite Z.sub_add_distr. Qed.
Lemma cst_copy m d src a b p : 0 <= a -> a <= b -> b <= zlen src -> zlen d + (b - a) <= m -> p = zlen d -> copyc src a b (cst m d) p = Ok (cst m (d ++ sub src a b)).
Proof. intros. unfold cst. rewrite copyc_fill by (done || lia). rewrite zlen_app, zlen_sub by lia. by rewrite Z.sub_add_distr. Qed.
Lemma faces_loop s ps : sky2 ps s -> forall qs p X Y m d, ps = X ++ (p :: qs) ++ Y -> zlen d + zlen (faces_joined (p :: qs)) <= m ->
  forZ (zlen X) (zlen X + zlen (p :: qs)) (fun j '(c, cnt) =>
      let* p0 := rd (s_index s) j in let* q := rd (s_index s) (j + 1) in
      let* c := copyc (s_values s) p0 q c cnt in
      let cnt := cnt + (q - p0) in
      if negb (j =? zlen X + zlen (p :: qs) - 1) then let* c := wrc c cnt (-1) in Ok (c, cnt + 1) else Ok (c, cnt)) (cst m d, zlen d) =
  Ok (cst m (d ++ faces_joined (p :: qs)), zlen (d ++ faces_joined (p :: qs))).
Proof.
  intros Hs qs. induction qs as [|q qs IH]; intros p X Y m d E Hm; pose proof (zlen_nonneg d); pose proof (zlen_nonneg p); pose proof (zlen_nonneg X).
  - assert (ps @ zlen X = Some p) as Hp by (rewrite E, zlook_app_r, Z.sub_diag by lia; done). destruct (agg_pack _ _ _ _ Hs Hp) as (a & I0 & I1 & Ha & Hb & Hsub).
    rewrite forZ_step by (rewrite zlen_cons, zlen_nil; lia). rewrite (rd_ok _ _ _ I0), (rd_ok _ _ _ I1). cbn [bind]. simpl faces_joined in *. rewrite cst_copy by lia. cbn [bind]. rewrite Hsub.
    rewrite zlen_cons, zlen_nil. replace (zlen X =? _) with true by lia. cbn [negb bind]. rewrite forZ_empty by lia. rewrite zlen_app. do 2 f_equal. lia.
  - assert (ps @ zlen X = Some p) as Hp by (rewrite E, zlook_app_r, Z.sub_diag by lia; done). destruct (agg_pack _ _ _ _ Hs Hp) as (a & I0 & I1 & Ha & Hb & Hsub).
    rewrite joined_cons, zlen_app, zlen_cons in Hm. pose proof (zlen_nonneg (faces_joined (q :: qs))). pose proof (zlen_nonneg qs).
    rewrite forZ_step by (rewrite !zlen_cons; lia). rewrite (rd_ok _ _ _ I0), (rd_ok _ _ _ I1). cbn [bind]. rewrite cst_copy by lia. cbn [bind]. rewrite Hsub.
    replace (zlen X =? _) with false by (rewrite !zlen_cons; lia). cbn [negb]. rewrite cst_wr by (rewrite zlen_app; lia). cbn [bind].
    specialize (IH q (X ++ [p]) Y m ((d ++ p) ++ [-1])). assert (zlen (X ++ [p]) = zlen X + 1) as HX by (rewrite zlen_app; done). rewrite HX in IH.
    replace (zlen X + 1 + zlen (q :: qs)) with (zlen X + zlen (p :: q :: qs)) in IH by (rewrite (zlen_cons p); lia).
    replace (zlen d + (a + zlen p - a) + 1) with (zlen ((d ++ p) ++ [-1])) by (rewrite !zlen_app; change (zlen [-1]) with 1; lia).
    rewrite joined_cons. replace (d ++ p ++ -1 :: faces_joined (q :: qs)) with (((d ++ p) ++ [-1]) ++ faces_joined (q :: qs)) by (by rewrite <- !app_assoc). apply IH.
    + rewrite E, <- app_assoc. done.
    + rewrite !zlen_app. change (zlen [-1]) with 1. lia.
Qed.
Lemma convert_ok pss s : exact3 pss s -> (forall qs, qs ∈ pss -> qs <> []) ->
  convertToPolyhedronConn s = Ok (Some <$> concat (poly_cell <$> pss), Some <$> offs 0 (zlen <$> (poly_cell <$> pss))).
Proof.
  intros (Hsu & Hi & Hv) Hne. set (ps := concat pss) in *.
  assert (sky2 ps s) as Hs by (exists [], []; rewrite Hv, Hi, app_nil_r; done).
  unfold convertToPolyhedronConn, checkSuperIndex. assert (zlen (s_super s) = zlen pss + 1) as Hsl by (by rewrite Hsu, offs_len, zlen_fmap).
  pose proof (len2 _ _ Hs) as Hil. pose proof (zlen_nonneg pss). pose proof (zlen_nonneg ps). rewrite Hsl. replace (zlen pss + 1 =? 0) with false by lia. cbn [ifthrow].
  rewrite alloc1 by lia. cbn [bind]. replace (zlen pss + 1 - 1) with (zlen pss) by lia.
  destruct (delta_ok (vec (s_index s)) eq_refl eq_refl) as (sp & -> & Hspl & Hsp); [rewrite da_nt_vec; lia|]. cbn [bind]. rewrite initialised_ok. cbn [bind].
  assert (sp = zlen <$> ps) as ->.
  { rewrite da_nt_vec in Hspl. apply zlook_ext_lt; [rewrite zlen_fmap; lia|]. intros i Hi'. destruct (zlook_lt ps i) as [p Hpi]; [lia|]. rewrite zlook_fmap, Hpi. simpl.
    destruct (agg_pack _ _ _ _ Hs Hpi) as (a & I0 & I1 & _). rewrite (Hsp i a (a + zlen p)) by done. f_equal. lia. }
  rewrite zsum_foldl, <- zlen_concat, zlen_fmap.
  set (cells := poly_cell <$> pss). assert (zlen (concat ps) + zlen ps = zlen (concat cells)) as Htot.
  { unfold ps, cells. clear -Hne. induction pss as [|qs pss IH]; [done|]. rewrite fmap_cons. change (concat (qs :: pss)) with (qs ++ concat pss). change (concat (poly_cell qs :: (poly_cell <$> pss))) with (poly_cell qs ++ concat (poly_cell <$> pss)).
    rewrite concat_app, !zlen_app. specialize (IH ltac:(intros; apply Hne; set_solver)). destruct qs as [|p qs]; [exfalso; apply (Hne []); [set_solver|done]|]. rewrite poly_len. lia. }
  rewrite Htot. set (m := zlen (concat cells)). rewrite alloc1 by apply zlen_nonneg. cbn [bind].
  pose (st := fun pre : list (list (list Z)) => (cst m (concat (poly_cell <$> pre)), cst (zlen pss + 1) (heads 0 (zlen <$> (poly_cell <$> pre))), zlen (concat (poly_cell <$> pre)))).
  replace (malloc Z m, malloc Z (zlen pss + 1), 0) with (st []) by (unfold st, cst; simpl; rewrite zlen_nil, !Z.sub_0_r; done).
  rewrite (forZ_blocks _ st (zlen pss) pss eq_refl).
  2: { intros pre qs post E. unfold st. destruct qs as [|p qs]; [exfalso; apply (Hne []); [rewrite E; set_solver|done]|].
    assert (zlen pre < zlen pss) by (rewrite E, zlen_app, zlen_cons; pose proof (zlen_nonneg post); lia).
    rewrite cst_wr by (rewrite heads_len, !zlen_fmap; lia). cbn [bind].
    assert (s_super s @ zlen pre = Some (zlen (concat pre)) /\ s_super s @ (zlen pre + 1) = Some (zlen (concat pre) + zlen (p :: qs))) as [S0 S1].
    { rewrite Hsu, E, (fmap_app zlen pre), offs_app, fmap_cons, offs_cons, <- zlen_concat. rewrite !zlook_app_r by (rewrite heads_len, zlen_fmap; lia). rewrite heads_len, zlen_fmap, Z.sub_diag. split; [done|].
      replace (zlen pre + 1 - zlen pre) with 1 by lia. rewrite zlook_cons. simpl. apply offs_hd. }
    rewrite (rd_ok _ _ _ S1). cbn [bind].
    pose proof (zlen_pre (poly_cell <$> pre) (poly_cell (p :: qs)) (poly_cell <$> post)) as Hz. rewrite <- fmap_cons, <- fmap_app, <- E in Hz. fold cells in Hz. fold m in Hz.
    change (poly_cell (p :: qs)) with (31 :: faces_joined (p :: qs)) in Hz. rewrite zlen_cons in Hz. pose proof (zlen_nonneg (faces_joined (p :: qs))). pose proof (zlen_nonneg (concat (poly_cell <$> post))).
    rewrite cst_wr by (done || lia). cbn [bind]. rewrite (rd_ok _ _ _ S0). cbn [bind].
    assert (ps = concat pre ++ (p :: qs) ++ concat post) as Eps by (unfold ps; rewrite E, concat_app; done).
    set (d := concat (poly_cell <$> pre) ++ [NORM_POLYHED]). assert (zlen d = zlen (concat (poly_cell <$> pre)) + 1) as Hd by (unfold d; rewrite zlen_app; done).
    rewrite <- Hd. pose proof (faces_loop s ps Hs qs p (concat pre) (concat post) m d Eps ltac:(lia)) as Hfl. cbv zeta in Hfl. cbv zeta. rewrite Hfl. cbn [bind].
    rewrite fmap_snoc, concat_snoc. unfold d. rewrite <- app_assoc. change ([NORM_POLYHED] ++ faces_joined (p :: qs)) with (poly_cell (p :: qs)). do 3 f_equal.
    rewrite !fmap_snoc, heads_snoc, Z.add_0_l, <- zlen_concat. done. }
  unfold st. cbn [bind]. fold cells. rewrite cst_wr by (unfold cells; rewrite heads_len, !zlen_fmap; lia). cbn [bind].
  replace (heads 0 (zlen <$> cells) ++ [zlen (concat cells)]) with (offs 0 (zlen <$> cells)) by (by rewrite offs_heads, Z.add_0_l, zlen_concat).
  unfold cst. rewrite !fill_done; [done|rewrite offs_len; unfold cells; rewrite !zlen_fmap; lia|unfold m; lia].
Qed.

(** Every connectivity comes from faces. *)
Fixpoint cut (w : list Z) : list (list Z) := match w with [] => [[]] | x :: w => if x =? -1 then [] :: cut w else match cut w with p :: qs => (x :: p) :: qs | [] => [[x]] end end.
Lemma cut_ok w : cut w <> [] /\ faces_joined (cut w) = w /\ forall f, f ∈ cut w -> -1 ∉ f.
Proof.
  induction w as [|x w (H1 & H2 & H3)]; [split; [done|]; split; [done|]; intros f Hf; apply elem_of_list_singleton in Hf as ->; set_solver|].
  cbn [cut]. destruct (cut w) as [|p qs] eqn:E; [done|]. destruct (Z.eqb_spec x (-1)) as [->|Hx].
  - split; [done|]. split; [rewrite joined_cons, H2; done|]. intros f Hf. apply elem_of_cons in Hf as [->|Hf]; [set_solver|by apply H3].
  - split; [done|]. split.
    + rewrite <- H2. by destruct qs.
    + intros f Hf. apply elem_of_cons in Hf as [->|Hf]; [|apply H3; set_solver]. specialize (H3 p). set_solver.
Qed.
Lemma conn_roundtrip (ws : list (list Z)) : let cells := cons 31 <$> ws in
  exists s, BuildFromPolyhedronConn (concat cells) (offs 0 (zlen <$> cells)) = Ok s /\ convertToPolyhedronConn s = Ok (Some <$> concat cells, Some <$> offs 0 (zlen <$> cells)).
Proof.
  intros cells. assert (cells = poly_cell <$> (cut <$> ws)) as ->.
  { unfold cells. clear. induction ws as [|w ws IH]; [done|]. rewrite !fmap_cons, IH. f_equal. unfold poly_cell. by rewrite (proj1 (proj2 (cut_ok w))). }
  destruct (build_ok (cut <$> ws)) as (s & Hb & He).
  - intros qs Hq. apply elem_of_list_fmap in Hq as (w & -> & _). apply cut_ok.
  - intros qs f Hq Hf. apply elem_of_list_fmap in Hq as (w & -> & _). by apply (cut_ok w).
  - exists s. split; [done|]. apply convert_ok; [done|]. intros qs Hq. apply elem_of_list_fmap in Hq as (w & -> & _). apply cut_ok.
Qed.
