(** Proofs: connectivity of one type, types met. *)
From Coq Require Import QArith ZifyBool ZifyNat.
From Verif Require Import Base DataArray IndexSpec FillLib IndexProofs3 IndexProofs4 CellTable CellModel UmModel UmSpec UmProofs UmProofs2 UmProofs3 UmProofs10 TyModel DgModel DgProofs5 SxProofs SxProofs3 SxProofs4 GxModel GxSpec.
Local Open Scope Z_scope.

Lemma forZ_cells {St} (good : cell -> bool) (body : Z -> St -> res St) (st : list cell -> St) (cells : list cell) :
  (forall pre c post, cells = pre ++ c :: post -> body (zlen pre) (st pre) = if good c then Ok (st (pre ++ [c])) else Throw) ->
  forall post pre, cells = pre ++ post -> forZ (zlen pre) (zlen cells) body (st pre) = if forallb good post then Ok (st cells) else Throw.
Proof.
  intros H. induction post as [|c post IH]; intros pre E.
  - rewrite app_nil_r in E. subst. by rewrite forZ_empty by lia.
  - pose proof (zlen_nonneg post). rewrite forZ_step by (rewrite E, zlen_app, zlen_cons; lia). rewrite (H pre c post E). cbn [forallb]. destruct (good c); [|done]. cbn [bind andb].
    replace (zlen pre + 1) with (zlen (pre ++ [c])) by (rewrite zlen_app; done). apply IH. by rewrite <- app_assoc.
Qed.
Lemma one_type m cells t : typed m cells -> um_types m = [t] -> cells <> [] /\ forall c, c ∈ cells -> c.1 = t.
Proof.
  intros [_ H] E. rewrite E in H. split.
  - intros ->. destruct (proj1 (H t)) as (c & Hc & _); [left|]. by apply elem_of_nil in Hc.
  - intros c Hc. apply elem_of_list_singleton. apply H. eauto.
Qed.
Lemma types_one m cells t : typed m cells -> cells <> [] -> (forall c, c ∈ cells -> c.1 = t) -> um_types m = [t].
Proof.
  intros [Ha H] Hn Hc. assert (forall x, x ∈ um_types m -> x = t) as Hx by (intros x (c & Hin & <-)%H; auto).
  destruct (um_types m) as [|a [|b l]].
  - destruct cells as [|c r]; [done|]. assert (c.1 ∈ ([] : list Z)) as Hf by (apply H; exists c; split; [left|done]). by apply elem_of_nil in Hf.
  - f_equal. apply Hx. left.
  - destruct Ha as [Ha _]. specialize (Ha b ltac:(left)). pose proof (Hx a ltac:(left)). pose proof (Hx b ltac:(right; left)). lia.
Qed.
Lemma zlen_snd (cells : list cell) : zlen (concat (snd <$> cells)) = zlen (concat (pk <$> cells)) - zlen cells.
Proof. induction cells as [|c r IH]; [done|]. rewrite !fmap_cons. cbn [concat]. rewrite !zlen_app, IH, zlen_pk, zlen_cons. lia. Qed.
Lemma zlen_same (cells : list cell) n : (forall c, c ∈ cells -> zlen c.2 = n) -> zlen (concat (snd <$> cells)) = zlen cells * n.
Proof. induction cells as [|c r IH]; intros H; [done|]. rewrite fmap_cons. cbn [concat]. rewrite zlen_app, IH, zlen_cons by (intros; apply H; by right). rewrite (H c) by left. lia. Qed.
Lemma snd_snoc (pre : list cell) (c : cell) : concat (snd <$> (pre ++ [c])) = concat (snd <$> pre) ++ c.2.
Proof. rewrite fmap_app, concat_app. cbn. by rewrite app_nil_r. Qed.
Lemma concat_le (pre post : list cell) (c : cell) : zlen (concat (snd <$> pre)) + zlen c.2 <= zlen (concat (snd <$> (pre ++ c :: post))).
Proof. rewrite fmap_app, concat_app, zlen_app, fmap_cons. cbn [concat]. rewrite zlen_app. pose proof (zlen_nonneg (concat (snd <$> post))). lia. Qed.

Lemma static_all m cells t k : stores m cells -> typed m cells -> cells <> [] -> (forall c, c ∈ cells -> c.1 = t) -> GetCellModel t = Ok k -> cm_dyn k = false -> 
  convertNodalConnectivityToStaticGeoTypeMesh m = if forallb (fun c : cell => zlen c.2 =? cm_nbpts k) cells then Ok (concat (snd <$> cells)) else Throw.
Proof.
  intros Hs Ht Hn Hc Hk Hd. destruct (stores_get m cells Hs) as (conn & connI & Ec & EI & Hsky & _). unfold convertNodalConnectivityToStaticGeoTypeMesh, checkConnectivityFullyDefined. rewrite Ec, EI, (types_one m cells t Ht Hn Hc), Hk. cbn [bind]. rewrite Hd. cbn [ifthrow]. rewrite (numCells_ok m cells Hs). cbn [bind].
  match goal with |- context [forZ 0 _ ?b []] => assert (forZ 0 (zlen cells) b [] = if forallb (fun c : cell => zlen c.2 =? cm_nbpts k) cells then Ok (concat (snd <$> cells)) else Throw) as E end.
  { destruct (forallb (fun c : cell => zlen c.2 =? cm_nbpts k) cells) eqn:Eall.
    - rewrite forallb_forall in Eall. assert (forall c, c ∈ cells -> zlen c.2 = cm_nbpts k) as Hl by (intros c Hin%elem_of_list_In; specialize (Eall c Hin); lia).
      match goal with |- forZ 0 _ ?b _ = _ => change (forZ 0 (zlen cells) b (concat (snd <$> ([] : list cell))) = Ok (concat (snd <$> cells))); apply (forZ_blocks b (fun pre : list cell => concat (snd <$> pre)) (zlen cells) cells eq_refl) end. intros pre c post E. assert (c ∈ cells) as Hin by (rewrite E; set_solver).
      destruct (read_cell cells conn connI Hsky (zlen pre) c) as (a & E1 & E2 & E3 & E4 & _); [rewrite E; apply mid_at|]. rewrite E1. cbn [bind]. rewrite E2. cbn [bind]. rewrite E3. cbn [bind]. rewrite (Hc c Hin), Z.eqb_refl. pose proof (Hl c Hin). replace (a + 1 + zlen c.2 - a =? cm_nbpts k + 1) with true by lia. cbn [andb].
      replace (a + 1 + zlen c.2 - (a + 1)) with (zlen c.2) by lia. rewrite E4 by (pose proof (zlen_nonneg c.2); lia). cbn [bind]. rewrite take_ge by (unfold zlen; lia). pose proof (concat_le pre post c) as HL. rewrite <- E, (zlen_same cells (cm_nbpts k) Hl) in HL. unfold ubif. replace (_ <? _) with false by lia. by rewrite snd_snoc.
    - (* up to the first cell of another size *)
      assert (exists pre c post, cells = pre ++ c :: post /\ (forall d, d ∈ pre -> zlen d.2 = cm_nbpts k) /\ zlen c.2 <> cm_nbpts k) as (pre & c & post & E & Hp & Hbad).
      { clear -Eall. induction cells as [|c r IH]; [done|]. cbn [forallb] in Eall. destruct (zlen c.2 =? cm_nbpts k) eqn:Ez.
        - destruct IH as (pre & d & post & -> & Hp & Hd); [done|]. exists (c :: pre), d, post. split; [done|]. split; [|done]. intros e He. apply elem_of_cons in He as [->|He]; [lia|auto].
        - exists [], c, r. split; [done|]. split; [|lia]. intros d Hd. by apply elem_of_nil in Hd. }
      unfold forZ. rewrite Z.sub_0_r. assert (seqZ 0 (zlen cells) = seqZ 0 (zlen pre) ++ seqZ (0 + zlen pre) (zlen (c :: post))) as -> by (rewrite <- seqZ_app by apply zlen_nonneg; rewrite <- zlen_app, <- E; done). rewrite foldM_split.
      match goal with |- context [foldM ?g (seqZ 0 (zlen pre)) []] => assert (foldM g (seqZ 0 (zlen pre)) [] = Ok (concat (snd <$> pre))) as -> end.
      { pose proof (forZ_blocks (fun i out => let* a := rd connI i in let* b := rd connI (i + 1) in let* t0 := rd conn a in if (t0 =? t) && (b - a =? cm_nbpts k + 1) then (let* l := rdn conn (a + 1) (b - (a + 1)) in ub_if zlen cells * cm_nbpts k <? zlen out + zlen l >>> Ok (out ++ l)) else Throw)
          (fun p : list cell => concat (snd <$> p)) (zlen pre) pre eq_refl) as W. unfold forZ in W. rewrite Z.sub_0_r in W. change (concat (snd <$> ([] : list cell))) with ([] : list Z) in W. apply W. clear W. intros p d q Ep.
        assert (d ∈ pre) as Hind by (rewrite Ep; set_solver). assert (d ∈ cells) as Hin by (rewrite E; set_solver).
        destruct (read_cell cells conn connI Hsky (zlen p) d) as (a & E1 & E2 & E3 & E4 & _); [rewrite E, Ep, <- app_assoc; apply mid_at|]. rewrite E1. cbn [bind]. rewrite E2. cbn [bind]. rewrite E3. cbn [bind]. rewrite (Hc d Hin), Z.eqb_refl. pose proof (Hp d Hind). replace (a + 1 + zlen d.2 - a =? cm_nbpts k + 1) with true by lia. cbn [andb].
        replace (a + 1 + zlen d.2 - (a + 1)) with (zlen d.2) by lia. rewrite E4 by (pose proof (zlen_nonneg d.2); lia). cbn [bind]. rewrite take_ge by (unfold zlen; lia). pose proof (concat_le p q d) as HL. rewrite <- Ep, (zlen_same pre (cm_nbpts k) Hp) in HL.
        pose proof (zlen_nonneg d.2). pose proof (zlen_nonneg (c :: post)). assert (zlen cells = zlen pre + zlen (c :: post)) as Hz by (rewrite E, zlen_app; done). unfold ubif. replace (_ <? _) with false by nia. by rewrite snd_snoc. }
      cbn [bind]. pose proof (zlen_nonneg post). rewrite seqZ_cons by (rewrite zlen_cons; lia). cbn [foldM].
      destruct (read_cell cells conn connI Hsky (zlen pre) c) as (a & E1 & E2 & E3 & _); [rewrite E; apply mid_at|]. replace (0 + zlen pre) with (zlen pre) by lia. rewrite E1. cbn [bind]. rewrite E2. cbn [bind]. rewrite E3. cbn [bind]. replace (a + 1 + zlen c.2 - a =? cm_nbpts k + 1) with false by lia. by rewrite andb_false_r. }
  rewrite E. destruct (forallb _ cells) eqn:Eall; [|done]. cbn [bind]. rewrite forallb_forall in Eall. rewrite (zlen_same cells (cm_nbpts k)), Z.eqb_refl; [done|]. intros c Hin%elem_of_list_In. specialize (Eall c Hin). lia.
Qed.
Lemma static_ok m cells t k : stores m cells -> typed m cells -> cells <> [] -> (forall c, c ∈ cells -> c.1 = t /\ zlen c.2 = cm_nbpts k) -> GetCellModel t = Ok k -> cm_dyn k = false ->
  convertNodalConnectivityToStaticGeoTypeMesh m = Ok (concat (snd <$> cells)).
Proof.
  intros Hs Ht Hn Hc Hk Hd. rewrite (static_all m cells t k); try done; [|intros c H; by apply Hc]. assert (forallb (fun c : cell => zlen c.2 =? cm_nbpts k) cells = true) as ->; [|done]. apply forallb_forall. intros c Hin%elem_of_list_In. destruct (Hc c Hin). lia.
Qed.
Lemma static_bad m cells t k : stores m cells -> typed m cells -> (forall c, c ∈ cells -> c.1 = t) -> GetCellModel t = Ok k -> cells = [] \/ cm_dyn k = true \/ (exists c, c ∈ cells /\ zlen c.2 <> cm_nbpts k) ->
  convertNodalConnectivityToStaticGeoTypeMesh m = Throw.
Proof.
  intros Hs Ht Hc Hk H. destruct (decide (cells = [])) as [->|Hn].
  - destruct (stores_get m [] Hs) as (conn & connI & Ec & EI & _). unfold convertNodalConnectivityToStaticGeoTypeMesh, checkConnectivityFullyDefined. rewrite Ec, EI. destruct Ht as [_ Ht]. destruct (um_types m) as [|a [|]]; [done| |done]. destruct (proj1 (Ht a)) as (c & Hin & _); [left|]. by apply elem_of_nil in Hin.
  - destruct (cm_dyn k) eqn:Ed.
    + destruct (stores_get m cells Hs) as (conn & connI & Ec & EI & _). unfold convertNodalConnectivityToStaticGeoTypeMesh, checkConnectivityFullyDefined. rewrite Ec, EI, (types_one m cells t Ht Hn Hc), Hk. cbn [bind]. by rewrite Ed.
    + destruct H as [?|[?|(c & Hin & Hl)]]; [done|done|]. rewrite (static_all m cells t k) by done. destruct (forallb _ cells) eqn:E; [|done]. rewrite forallb_forall in E. apply elem_of_list_In in Hin. specialize (E c Hin). cbn in E. lia.
Qed.
Lemma mixed_types m cells c d : typed m cells -> c ∈ cells -> d ∈ cells -> c.1 <> d.1 -> zlen (um_types m) <> 1.
Proof. intros [_ H] Hc Hd Hne E. unfold zlen in E. destruct (um_types m) as [|a [|]]; cbn [length] in E; try lia. assert (c.1 ∈ [a]) as H1 by (apply H; eauto). assert (d.1 ∈ [a]) as H2 by (apply H; eauto). apply elem_of_list_singleton in H1, H2. congruence. Qed.
Lemma mixed_throw m cells c d : stores m cells -> typed m cells -> c ∈ cells -> d ∈ cells -> c.1 <> d.1 -> convertNodalConnectivityToStaticGeoTypeMesh m = Throw /\ convertNodalConnectivityToDynamicGeoTypeMesh m = Throw.
Proof.
  intros Hs Ht Hc Hd Hne. pose proof (mixed_types m cells c d Ht Hc Hd Hne) as Hl. destruct (stores_get m cells Hs) as (conn & connI & Ec & EI & _). unfold convertNodalConnectivityToStaticGeoTypeMesh, convertNodalConnectivityToDynamicGeoTypeMesh, checkConnectivityFullyDefined. rewrite Ec, EI. split; [by destruct (um_types m) as [|a [|]]|]. by replace (zlen (um_types m) =? 1) with false by lia.
Qed.

Definition sizes (cells : list cell) : list Z := zlen <$> (snd <$> cells).
Lemma dyn_all m cells t : stores m cells -> typed m cells -> cells <> [] -> (forall c, c ∈ cells -> c.1 = t) ->
  convertNodalConnectivityToDynamicGeoTypeMesh m = if forallb (fun c : cell => 1 <=? zlen c.2) cells then Ok (concat (snd <$> cells), psums (sizes cells)) else Throw.
Proof.
  intros Hs Ht Hn Hc. destruct (stores_get m cells Hs) as (conn & connI & Ec & EI & Hsky & _). unfold convertNodalConnectivityToDynamicGeoTypeMesh, checkConnectivityFullyDefined. rewrite Ec, EI, (types_one m cells t Ht Hn Hc). change (zlen [t] =? 1) with true. cbn [negb ifthrow]. rewrite (numCells_ok m cells Hs). cbn [bind].
  destruct (sky_eq _ _ _ Hsky) as [Econn _]. assert (zlen conn = zlen cells + zlen (concat (snd <$> cells))) as HL by (rewrite zlen_snd, Econn; lia). pose proof (zlen_nonneg (concat (snd <$> cells))). replace (zlen conn <? zlen cells) with false by lia. cbn [ifthrow].
  match goal with |- context [forZ 0 _ ?b _] => pose proof (forZ_cells (fun c : cell => 1 <=? zlen c.2) b (fun pre => (concat (snd <$> pre), psums (sizes pre))) cells) as W end.
  match goal with |- context [forZ 0 ?n ?b ?s] => change (forZ 0 n b s) with (forZ (zlen ([] : list cell)) n b (concat (snd <$> ([] : list cell)), psums (sizes []))) end. rewrite (W) with (pre := []) (post := cells); [|clear W|done].
  - destruct (forallb _ cells); [|done]. cbn [bind]. replace (zlen (concat (snd <$> cells)) =? zlen conn - zlen cells) with true by lia. done.
  - intros pre c post E. destruct (read_cell cells conn connI Hsky (zlen pre) c) as (a & E1 & E2 & E3 & E4 & _ & _ & Ha & Hb); [rewrite E; apply mid_at|]. rewrite E1. cbn [bind]. rewrite E2. cbn [bind]. replace (a + 1 + zlen c.2 - (a + 1)) with (zlen c.2) by lia.
    destruct (1 <=? zlen c.2) eqn:El; [|done]. cbn [negb ifthrow]. replace ((0 <=? a + 1) && (a + 1 <? zlen conn) && ((0 <=? a + 1 + zlen c.2) && (a + 1 + zlen c.2 <=? zlen conn))) with true by lia. cbn [negb ifthrow].
    rewrite E4 by lia. cbn [bind]. rewrite take_ge by (unfold zlen; lia). pose proof (concat_le pre post c) as HL2. rewrite <- E in HL2. unfold ubif. replace (zlen conn - zlen cells <? _) with false by lia.
    assert (rd (psums (sizes pre)) (zlen pre) = Ok (zsum (sizes pre))) as ->. { apply rd_ok. replace (zlen pre) with (zlen (sizes pre)) by (unfold sizes, zlen; by rewrite !fmap_length). apply psums_end. }
    cbn [bind]. rewrite snd_snoc. unfold sizes. rewrite !fmap_app. cbn [fmap list_fmap]. by rewrite psums_snoc_eq.
Qed.
Lemma dyn_ok m cells t : stores m cells -> typed m cells -> cells <> [] -> (forall c, c ∈ cells -> c.1 = t /\ 1 <= zlen c.2) ->
  exists c ci, convertNodalConnectivityToDynamicGeoTypeMesh m = Ok (c, ci) /\ skyline (snd <$> cells) c ci.
Proof.
  intros Hs Ht Hn Hc. eexists _, _. split; [rewrite (dyn_all m cells t); try done|].
  - assert (forallb (fun c : cell => 1 <=? zlen c.2) cells = true) as ->; [|reflexivity]. apply forallb_forall. intros c Hin%elem_of_list_In. destruct (Hc c Hin). lia.
  - intros c H. by apply Hc.
  - split; [done|]. apply psums_ok.
Qed.
Lemma dyn_bad m cells t c : stores m cells -> typed m cells -> (forall c, c ∈ cells -> c.1 = t) -> c ∈ cells -> c.2 = [] -> convertNodalConnectivityToDynamicGeoTypeMesh m = Throw.
Proof.
  intros Hs Ht Hc Hin E0. rewrite (dyn_all m cells t); try done; [|intros ->; by apply elem_of_nil in Hin]. destruct (forallb _ cells) eqn:E; [|done]. rewrite forallb_forall in E. apply elem_of_list_In in Hin. specialize (E c Hin). cbn in E. by rewrite E0 in E.
Qed.
