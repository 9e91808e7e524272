(** MergeUMeshes, PutUMeshesOnSameAggregatedCoords. *)
From Coq Require Import QArith ZifyBool ZifyNat.
From Verif Require Import CellModel Base DataArray ArrLib FillLib StdModel RenumModel SetsModel IndexModel IndexSpec IndexProofs2 IndexProofs3 IndexProofs4 IndexProofs6 SkyModel SkyProofs PartModel TreeModel CellTable UmModel UmSpec UmProofs UmProofs2 UmProofs5 UmProofs10 UcModel UcProofs4 TyModel TySpec MgModel MgSpec MgProofs.
Local Open Scope Z_scope.

Lemma omap_all {A} (l : list A) : omap id (Some <$> l) = l.
Proof. induction l as [|x l IH]; [done|]. rewrite fmap_cons. cbn. f_equal. exact IH. Qed.
Lemma all_there {A} (l : list A) : forallb (fun o : option A => match o with Some _ => true | None => false end) (Some <$> l) = true.
Proof. induction l; done. Qed.
Lemma one_missing {A} (l : list (option A)) : None ∈ l -> forallb (fun o : option A => match o with Some _ => true | None => false end) l = false.
Proof. induction l as [|o l IH]; intros H; [by apply elem_of_nil in H|]. apply elem_of_cons in H as [<-|H]; [done|]. cbn. rewrite IH by done. by destruct o. Qed.

(** buildSetInstanceFromThis completes the arrays. *)
Definition completed (sd : Z) (m : umesh) : umesh :=
  UM (um_dim m) (Some (default (DA true sd []) (um_coords m))) (Some (default [] (um_conn m))) (Some (default [0] (um_connI m))) (match um_conn m, um_connI m with Some _, Some _ => um_types m | _, _ => [] end).
Lemma instance_ok m sd : 0 <= um_dim m -> buildSetInstanceFromThis m sd = Ok (completed sd m).
Proof.
  intros H. unfold buildSetInstanceFromThis, getMeshDimension. replace (um_dim m <? -1) with false by lia. cbn [ifthrow bind]. replace (um_dim m <? 0) with false by lia. cbn [ifthrow].
  unfold setConnectivity. cbn [bind um_conn um_connI]. unfold completed. destruct (um_conn m), (um_connI m); done.
Qed.
Lemma instance_throw m sd : um_dim m < 0 -> buildSetInstanceFromThis m sd = Throw.
Proof. intros H. unfold buildSetInstanceFromThis, getMeshDimension. destruct (um_dim m <? -1); [done|]. cbn [ifthrow bind]. replace (um_dim m <? 0) with true by lia. done. Qed.
Lemma instances_ok ms sd : (forall m, m ∈ ms -> 0 <= um_dim m) -> foldM (fun aa m => let* b := buildSetInstanceFromThis m sd in Ok (aa ++ [b])) ms [] = Ok (completed sd <$> ms).
Proof.
  intros H. assert (G : forall r pre, (forall m, m ∈ r -> m ∈ ms) -> foldM (fun aa m => let* b := buildSetInstanceFromThis m sd in Ok (aa ++ [b])) r pre = Ok (pre ++ (completed sd <$> r))).
  { induction r as [|m r IH]; intros pre Hr; [cbn; by rewrite app_nil_r|]. cbn [foldM]. rewrite instance_ok by (apply H, Hr; left). cbn [bind]. rewrite IH by (intros; apply Hr; by right). by rewrite <- app_assoc. }
  rewrite G by done. done.
Qed.
Lemma instances_throw ms sd m : m ∈ ms -> um_dim m < 0 -> forall s, foldM (fun aa m => let* b := buildSetInstanceFromThis m sd in Ok (aa ++ [b])) ms s = Throw.
Proof.
  intros Hm Hd. induction ms as [|x ms IH]; intros s; [by apply elem_of_nil in Hm|]. cbn [foldM]. destruct (decide (0 <= um_dim x)) as [H|H]; [|rewrite instance_throw by lia; done].
  rewrite instance_ok by done. cbn [bind]. apply IH. apply elem_of_cons in Hm as [->|Hm]; [lia|done].
Qed.
Lemma completed_stores sd m sd' cs nb : brings m sd' cs nb -> stores (completed sd m) cs.
Proof.
  intros [[(conn & connI & E1 & E2 & H)|(E1 & E2 & ->)] _].
  - exists conn, connI. unfold completed. cbn [um_conn um_connI]. rewrite E1, E2. done.
  - exists [], [0]. unfold completed. cbn [um_conn um_connI]. rewrite E1, E2. split; [done|]. split; [done|]. split; [done|]. exact (psums_ok []).
Qed.
Lemma completed_full d sd m p : 0 <= sd -> brings m sd p.1 p.2 -> um_dim m = d -> separators p.1 -> full d sd (completed sd m) p.
Proof.
  intros Hsd Hb Hd Hs. split; [by eapply completed_stores|]. split; [|done]. destruct Hb as [_ [(x & E & Ha & Hw & Hn & Ht)|[E Hn]]].
  - exists x. unfold completed. cbn [um_coords]. rewrite E. done.
  - exists (DA true sd []). unfold completed. cbn [um_coords]. rewrite E, Hn. split; [done|]. split; [done|]. split; [split; [done|]; by exists 0|]. split; [done|]. unfold da_nt. cbn [da_nc da_vals]. by destruct (sd =? 0).
Qed.
Lemma omap_coords_nil ms : omap um_coords ms = [] <-> forall m, m ∈ ms -> um_coords m = None.
Proof.
  split.
  - intros E m Hm. destruct (um_coords m) as [x|] eqn:Ex; [|done]. assert (x ∈ omap um_coords ms) as Hx by (apply elem_of_list_omap; eauto). rewrite E in Hx. by apply elem_of_nil in Hx.
  - intros H. induction ms as [|m ms IH]; [done|]. cbn. rewrite H by left. apply IH. intros; apply H; by right.
Qed.
Lemma omap_coords_first ms x r : omap um_coords ms = x :: r -> exists m, m ∈ ms /\ um_coords m = Some x.
Proof. intros E. assert (x ∈ omap um_coords ms) as Hx by (rewrite E; left). apply elem_of_list_omap in Hx. done. Qed.

Lemma merge_meshes_ok d sd ms info : 0 <= d -> Forall2 (fun m p => brings m sd p.1 p.2 /\ um_dim m = d /\ separators p.1) ms info -> (exists m, m ∈ ms /\ is_Some (um_coords m)) ->
  exists m', MergeUMeshes (Some <$> ms) = Ok m' /\ stores m' (side_by_side 0 info) /\ typed m' (side_by_side 0 info) /\ um_dim m' = d /\ nodes_in m' sd (zsum (snd <$> info)) /\
    forall i m k q, ms @ i = Some m -> point m k q -> point m' (nodes_before info i + k) q.
Proof.
  intros Hd HF (mx & Hmx & cx & Hcx). unfold MergeUMeshes. destruct (Some <$> ms) as [|o l] eqn:El; [destruct ms; [by apply elem_of_nil in Hmx|done]|]. rewrite <- El. rewrite all_there, omap_all. cbn [negb ifthrow].
  assert (Hall : forall m, m ∈ ms -> exists p, brings m sd p.1 p.2 /\ um_dim m = d /\ separators p.1). { intros m Hm. apply elem_of_list_lookup in Hm as [i Hi]. destruct (Forall2_lookup_l _ _ _ _ _ HF Hi) as (p & _ & H). by exists p. }
  assert (Hnc : forall m x, m ∈ ms -> um_coords m = Some x -> da_nc x = sd /\ da_wf x). { intros m x Hm Hx. destruct (Hall m Hm) as (p & [_ [(y & E & _ & Hw & Hn & _)|[E _]]] & _); [rewrite Hx in E; injection E as <-; done|congruence]. }
  destruct (omap um_coords ms) as [|x r] eqn:Eo; [exfalso; apply (proj1 (omap_coords_nil ms)) with (m := mx) in Eo; [congruence|done]|].
  destruct (omap_coords_first ms x r Eo) as (mf & Hmf & Hxf). destruct (Hnc mf x Hmf Hxf) as [Hsd Hw]. rewrite Hsd. assert (0 <= sd) as Hsd0 by (destruct (da_wf_len x Hw) as (_ & _ & ?); lia).
  rewrite instances_ok by (intros m Hm; destruct (Hall m Hm) as (p & _ & <- & _); done). cbn [bind].
  assert (HF' : Forall2 (full d sd) (completed sd <$> ms) info). { apply Forall2_fmap_l. eapply Forall2_impl; [exact HF|]. intros m p (H1 & H2 & H3). by apply completed_full. }
  destruct ms as [|m0 ms]; [by apply elem_of_nil in Hmx|]. rewrite fmap_cons in HF' |- *. destruct (LL_ok d sd _ _ info Hd HF') as (m' & E & Hs & Ht & Hdm & Hco). rewrite <- fmap_cons in HF', Hco.
  exists m'. split; [exact E|]. split; [done|]. split; [done|]. split; [done|].
  assert (HN : Forall2 (fun m (p : list cell * Z) => nodes_in m sd p.2) (completed sd <$> m0 :: ms) info). { eapply Forall2_impl; [exact HF'|]. intros m p (_ & H & _). done. }
  split; [by eapply joined_nodes|]. intros i m k q Hi Hp. apply (joined_points sd (completed sd <$> m0 :: ms) info i (completed sd m) k q m'); [done|done| |].
  - rewrite zlook_fmap, Hi. done.
  - destruct Hp as (y & Hy & H). exists y. unfold completed. cbn [um_coords]. rewrite Hy. done.
Qed.

(** What is refused. *)
Definition bringing (m : umesh) : Prop := exists sd cs nb, brings m sd cs nb.
Lemma merge_meshes_throw ms : (forall m, m ∈ ms -> bringing m) ->
  ms = [] \/ (forall m, m ∈ ms -> um_coords m = None) \/ (exists m, m ∈ ms /\ um_dim m < 0) \/ (exists m m', m ∈ ms /\ m' ∈ ms /\ um_dim m <> um_dim m') \/
    (exists m m' x x', m ∈ ms /\ m' ∈ ms /\ um_coords m = Some x /\ um_coords m' = Some x' /\ da_nc x <> da_nc x') -> MergeUMeshes (Some <$> ms) = Throw.
Proof.
  intros Hb Hor. unfold MergeUMeshes. destruct (Some <$> ms) as [|o l] eqn:El; [done|]. rewrite <- El. rewrite all_there, omap_all. cbn [negb ifthrow].
  destruct (omap um_coords ms) as [|x r0] eqn:Eo; [done|]. destruct (omap_coords_first ms x r0 Eo) as (mf & Hmf & Hxf). destruct Hor as [->|[Hor|Hor]]; [done|rewrite (Hor mf Hmf) in Hxf; done|].
  destruct (decide (Exists (fun m => um_dim m < 0) ms)) as [He|Hne].
  { apply Exists_exists in He as (m & Hm & Hd). rewrite (instances_throw ms (da_nc x) m Hm Hd). done. }
  assert (Hpos : forall m, m ∈ ms -> 0 <= um_dim m). { intros m Hm. destruct (decide (0 <= um_dim m)); [done|]. destruct Hne. apply Exists_exists. exists m. split; [done|lia]. }
  rewrite instances_ok by done. cbn [bind]. destruct Hor as [(m & Hm & Hd)|Hor]; [specialize (Hpos m Hm); lia|].
  destruct ms as [|m0 ms]; [by apply elem_of_nil in Hmf|]. rewrite fmap_cons. unfold MergeUMeshesLL. rewrite <- fmap_cons. set (sd := da_nc x) in *.
  assert (Hgd : forall m, m ∈ m0 :: ms -> getMeshDimension (completed sd m) = Ok (um_dim m)). { intros m Hm. unfold getMeshDimension, completed. cbn [um_dim]. specialize (Hpos m Hm). replace (um_dim m <? -1) with false by lia. done. }
  rewrite Hgd by left. cbn [bind].
  assert (Hcells : forall m, m ∈ m0 :: ms -> exists n, getNumberOfCells (completed sd m) = Ok n). { intros m Hm. destruct (Hb m Hm) as (sd' & cs & nb & H). exists (zlen cs). apply numCells_ok. by eapply completed_stores. }
  match goal with |- context [foldM ?f _ _] => set (F := f) end.
  destruct (decide (Forall (fun m => um_dim m = um_dim m0) (m0 :: ms))) as [Hsame|Hdiff].
  - rewrite Forall_forall in Hsame. assert (Hf : forall r s, (forall m, m ∈ r -> m ∈ m0 :: ms) -> exists s', foldM F (completed sd <$> r) s = Ok s').
    { induction r as [|m r IH]; intros s Hr; [eexists; reflexivity|]. rewrite fmap_cons. cbn [foldM]. destruct s as [a b]. unfold F at 1. rewrite Hgd by (apply Hr; left). cbn [bind]. rewrite (Hsame m) by (apply Hr; left). rewrite Z.eqb_refl. cbn [negb ifthrow].
      destruct (Hcells m) as [n ->]; [apply Hr; left|]. cbn [bind]. cbn [completed um_conn]. apply IH. intros; apply Hr; by right. }
    destruct (Hf (m0 :: ms) (0, 0)) as [[a b] ->]; [done|]. cbn [bind].
    assert (HM : MergeNodesArray (completed sd <$> m0 :: ms) = Throw); [|rewrite HM; done].
    assert (Hal : forall m y, m ∈ m0 :: ms -> um_coords m = Some y -> da_alloc y = true). { intros m y Hm Hy. destruct (Hb m Hm) as (sd' & cs & nb & _ & [(z & Ez & Ha & _)|[Ez _]]); congruence. }
    assert (Hex : exists m, m ∈ ms /\ da_nc (default (DA true sd []) (um_coords m)) <> da_nc (default (DA true sd []) (um_coords m0))).
    { destruct Hor as [(m & m' & Hm & Hm' & Hne')|(m & m' & y & y' & Hm & Hm' & Hy & Hy' & Hne')]; [exfalso; apply Hne'; rewrite (Hsame m), (Hsame m'); done|].
      set (D := fun m => da_nc (default (DA true sd []) (um_coords m))). assert (Hor : D m <> D m0 \/ D m' <> D m0). { unfold D. rewrite Hy, Hy'. cbn [default]. destruct (decide (da_nc y = da_nc (default (DA true sd []) (um_coords m0)))); [right; cbn; congruence|left; done]. }
      destruct Hor as [H|H]; [exists m|exists m']; (split; [|exact H]).
      - apply elem_of_cons in Hm as [->|Hm]; [by destruct H|done].
      - apply elem_of_cons in Hm' as [->|Hm']; [by destruct H|done]. }
    rewrite fmap_cons. unfold MergeNodesArray. cbn [completed um_coords]. set (d0 := default (DA true sd []) (um_coords m0)) in *.
    assert (Hda : forall m, m ∈ m0 :: ms -> da_alloc (default (DA true sd []) (um_coords m)) = true). { intros m Hm. destruct (um_coords m) eqn:E; [by apply (Hal m)|done]. }
    pose proof (Hda m0 ltac:(left)) as Hd0; fold d0 in Hd0; rewrite Hd0. cbn [negb ifthrow]. match goal with |- context [foldM ?f _ _] => set (G := f) end.
    destruct Hex as (m & Hm & Hne'). assert (HG : forall r s, m ∈ r -> (forall m, m ∈ r -> m ∈ m0 :: ms) -> foldM G (completed sd <$> r) s = Throw); [|rewrite HG; [done|done|intros; by right]].
    induction r as [|z r IH]; intros s Hr Hin; [by apply elem_of_nil in Hr|]. rewrite fmap_cons. cbn [foldM]. unfold G at 1. cbn [completed um_coords]. rewrite Hda by (apply Hin; left). cbn [negb ifthrow].
    destruct (Z.eqb_spec (da_nc (default (DA true sd []) (um_coords z))) (da_nc d0)) as [Ez|Ez]; [|done]. cbn [negb ifthrow bind]. apply IH; [|intros; apply Hin; by right]. apply elem_of_cons in Hr as [->|Hr]; [done|done].
  - apply not_Forall_Exists in Hdiff; [|intros m; destruct (decide (um_dim m = um_dim m0)); [by left|by right]]. apply Exists_exists in Hdiff as (m & Hm & Hne'). cbv beta in Hne'.
    assert (HG : forall r s, m ∈ r -> (forall m, m ∈ r -> m ∈ m0 :: ms) -> foldM F (completed sd <$> r) s = Throw); [|rewrite HG; done].
    induction r as [|z r IH]; intros s Hr Hin; [by apply elem_of_nil in Hr|]. rewrite fmap_cons. cbn [foldM]. destruct s as [a b]. unfold F at 1. rewrite Hgd by (apply Hin; left). cbn [bind].
    destruct (Z.eqb_spec (um_dim m0) (um_dim z)) as [Ez|Ez]; [|done]. cbn [negb ifthrow]. destruct (Hcells z) as [n ->]; [apply Hin; left|]. cbn [bind completed um_conn]. apply IH; [|intros; apply Hin; by right]. apply elem_of_cons in Hr as [->|Hr]; [congruence|done].
Qed.
Lemma merge_null_throw l : None ∈ l -> MergeUMeshes l = Throw.
Proof. intros H. unfold MergeUMeshes. destruct l as [|o l]; [done|]. rewrite one_missing by done. done. Qed.

(** * PutUMeshesOnSameAggregatedCoords *)
Definition placed (sd : Z) (m : umesh) (p : list cell * Z) : Prop := stores m p.1 /\ nodes_in m sd p.2.
Lemma placed_gather sd ms info : Forall2 (placed sd) ms info ->
  foldM (fun ms o => match o with Some m => checkConnectivityFullyDefined m (fun _ _ => match um_coords m with Some _ => Ok (ms ++ [m]) | None => Throw end) | None => Throw end) (Some <$> ms) [] = Ok ms.
Proof.
  intros H. assert (G : forall r pre, (exists i, Forall2 (placed sd) r i) -> foldM (fun ms o => match o with Some m => checkConnectivityFullyDefined m (fun _ _ => match um_coords m with Some _ => Ok (ms ++ [m]) | None => Throw end) | None => Throw end) (Some <$> r) pre = Ok (pre ++ r)).
  { induction r as [|m r IH]; intros pre [i Hi]; [cbn; by rewrite app_nil_r|]. inversion Hi as [|? p ? i' [Hs Hn] Hr]. subst. rewrite fmap_cons. cbn [foldM]. destruct (stores_get m _ Hs) as (conn & connI & Ec & EI & _). unfold checkConnectivityFullyDefined at 1. rewrite EI, Ec.
    destruct Hn as (x & Ex & _). rewrite Ex. cbn [bind]. rewrite IH by eauto. by rewrite <- app_assoc. }
  rewrite G by eauto. done.
Qed.
Lemma placed_agg sd ms info : ms <> [] -> Forall2 (placed sd) ms info -> Aggregate (um_coords <$> ms) = Ok (DA true sd (Some <$> concat (coordsOf <$> ms))).
Proof.
  intros Hne H. assert (Hc : forall m, m ∈ ms -> exists x, um_coords m = Some x /\ da_wf x /\ da_nc x = sd).
  { intros m Hm. apply elem_of_list_lookup in Hm as [i Hi]. destruct (Forall2_lookup_l _ _ _ _ _ H Hi) as (p & _ & _ & (x & X1 & X2 & X3 & X4 & _)). exists x. done. }
  rewrite (aggregate_ok _ sd).
  - do 4 f_equal. assert (G : forall r : list umesh, (forall m, m ∈ r -> m ∈ ms) -> da_vals <$> omap id (um_coords <$> r) = coordsOf <$> r).
    { induction r as [|m r IH]; intros Hr; [done|]. destruct (Hc m) as (x & Ex & _); [apply Hr; left|]. rewrite !fmap_cons. cbn [omap list_omap]. unfold id at 1. rewrite Ex. rewrite fmap_cons, IH by (intros; apply Hr; by right). f_equal. unfold coordsOf. by rewrite Ex. }
    apply G. done.
  - destruct ms as [|m0 ms]; [done|]. destruct (Hc m0) as (x & Ex & _); [left|]. rewrite fmap_cons, Ex. done.
  - intros x Hx. apply elem_of_list_fmap in Hx as (m & Em & Hm). destruct (Hc m Hm) as (x' & Ex & Wx & Nx). rewrite Ex in Em. injection Em as ->. done.
Qed.
Lemma rename_0 (cs : list cell) : rename (fun v => v + 0) <$> cs = cs.
Proof.
  rewrite <- (list_fmap_id cs) at 2. apply list_fmap_ext. intros i [t l] _. unfold rename. cbn. f_equal. rewrite <- (list_fmap_id l) at 2. apply list_fmap_ext. intros j v _. cbn. destruct (0 <=? v); lia.
Qed.
Definition put (sd : Z) (D : da Q) (o : Z) (m : umesh) (p : list cell * Z) (m' : umesh) : Prop :=
  stores m' (rename (fun v => v + o) <$> p.1) /\ um_coords m' = Some D /\ um_dim m' = um_dim m /\ um_types m' = um_types m.
Lemma put_ok sd ms info : 2 <= zlen ms -> Forall2 (placed sd) ms info ->
  exists ms', PutUMeshesOnSameAggregatedCoords (Some <$> ms) = Ok (Some <$> ms') /\ zlen ms' = zlen ms /\
    forall i m p, ms @ i = Some m -> info @ i = Some p -> exists m', ms' @ i = Some m' /\ put sd (joined sd ms) (nodes_before info i) m p m'.
Proof.
  intros Hl HF. unfold PutUMeshesOnSameAggregatedCoords. rewrite zlen_fmap. replace ((zlen ms =? 0) || (zlen ms =? 1)) with false by lia. rewrite (placed_gather sd ms info HF). cbn [bind].
  rewrite (placed_agg sd ms info) by (done || (destruct ms; done)). cbn [bind]. rewrite written_ok. cbn [bind]. fold (joined sd ms). set (D := joined sd ms).
  destruct ms as [|m0 rest]; [done|]. inversion HF as [|? p0 ? irest [Hs0 Hn0] HFr]. subst. assert (Hgn : forall m nb, nodes_in m sd nb -> getNumberOfNodes m = Ok nb). { intros m nb (x & Ex & _ & _ & _ & Hx). unfold getNumberOfNodes. by rewrite Ex, Hx. }
  rewrite (Hgn m0 p0.2 Hn0). cbn [bind]. match goal with |- context [foldM ?f _ _] => set (F := f) end.
  assert (G : forall r ir, Forall2 (placed sd) r ir -> forall out o, exists out', foldM F r (out, o) = Ok (out ++ (Some <$> out'), o + zsum (snd <$> ir)) /\ zlen out' = zlen r /\
    forall i m p, r @ i = Some m -> ir @ i = Some p -> exists m', out' @ i = Some m' /\ put sd D (o + nodes_before ir i) m p m').
  { intros r ir H. induction H as [|m p r ir [Hs Hn] Hr IH]; intros out o.
    - exists []. cbn [foldM]. split; [f_equal; f_equal; [cbn; by rewrite app_nil_r|change (zsum (snd <$> [])) with 0; lia]|]. split; [done|]. intros i m p Hi. by rewrite zlook_nil in Hi.
    - cbn [foldM]. unfold F at 1. rewrite (Hgn m p.2 Hn). cbn [bind]. destruct (offset_ok (setCoords m D) p.1 o) as (m' & E & Hs' & (Hd & Hco & Hty)). { destruct Hs as (c & cI & ?). exists c, cI. done. }
      rewrite E. cbn [bind]. destruct (IH (out ++ [Some m']) (o + p.2)) as (out' & -> & Hlo & Ho). exists (m' :: out'). split; [f_equal; f_equal; [rewrite <- app_assoc; done|rewrite fmap_cons; change (zsum (?x :: ?l)) with (x + zsum l); lia]|]. split; [rewrite !zlen_cons; lia|].
      intros i mi pi Hi Hpi. apply zlook_Some_lt in Hi as Hri. rewrite zlook_cons in Hi. rewrite zlook_cons in Hpi. rewrite zlook_cons. destruct (Z.eqb_spec i 0) as [->|Hi0].
      + injection Hi as <-. injection Hpi as <-. exists m'. split; [done|]. unfold nodes_before. change (Z.to_nat 0) with 0%nat. rewrite take_0. change (zsum []) with 0. rewrite Z.add_0_r. split; [done|]. done.
      + destruct (Ho (i - 1) mi pi Hi Hpi) as (mi' & Hm' & Hp'). exists mi'. split; [done|]. replace (o + nodes_before ((p :: ir)) i) with (o + p.2 + nodes_before ir (i - 1)); [done|]. unfold nodes_before. rewrite fmap_cons. replace (Z.to_nat i) with (S (Z.to_nat (i - 1))) by lia. rewrite firstn_cons. change (zsum (?x :: ?l)) with (x + zsum l). lia. }
  destruct (G rest irest HFr [Some (setCoords m0 D)] p0.2) as (out' & -> & Hlo & Ho). cbn [bind]. exists (setCoords m0 D :: out'). split; [done|]. split; [rewrite !zlen_cons; lia|].
  intros i mi pi Hi Hpi. apply zlook_Some_lt in Hi as Hri. rewrite zlook_cons in Hi. rewrite zlook_cons in Hpi. rewrite zlook_cons. destruct (Z.eqb_spec i 0) as [->|Hi0].
  - injection Hi as <-. injection Hpi as <-. exists (setCoords m0 D). split; [done|]. unfold nodes_before. change (Z.to_nat 0) with 0%nat. rewrite take_0. change (zsum []) with 0. split; [|done]. rewrite rename_0. destruct Hs0 as (c & cI & ?). exists c, cI. done.
  - destruct (Ho (i - 1) mi pi Hi Hpi) as (mi' & Hm' & Hp'). exists mi'. split; [done|]. replace (nodes_before (p0 :: irest) i) with (p0.2 + nodes_before irest (i - 1)); [done|]. unfold nodes_before. rewrite fmap_cons. replace (Z.to_nat i) with (S (Z.to_nat (i - 1))) by lia. rewrite firstn_cons. done.
Qed.
Lemma put_all_ok sd ms info : 2 <= zlen ms -> Forall2 (placed sd) ms info ->
  exists ms' D, PutUMeshesOnSameAggregatedCoords (Some <$> ms) = Ok (Some <$> ms') /\ zlen ms' = zlen ms /\
    forall i m p, ms @ i = Some m -> info @ i = Some p -> exists m', ms' @ i = Some m' /\ stores m' (rename (fun v => v + nodes_before info i) <$> p.1) /\ um_dim m' = um_dim m /\ um_types m' = um_types m /\
      um_coords m' = Some D /\ nodes_in m' sd (zsum (snd <$> info)) /\ forall j mj k q, ms @ j = Some mj -> point mj k q -> point m' (nodes_before info j + k) q.
Proof.
  intros Hl HF. destruct (put_ok sd ms info Hl HF) as (ms' & E & Hlen & H). exists ms', (joined sd ms). split; [done|]. split; [done|]. intros i m p Hi Hp. destruct (H i m p Hi Hp) as (m' & Hm' & H1 & H2 & H3 & H4). exists m'.
  assert (HN : Forall2 (fun m (p : list cell * Z) => nodes_in m sd p.2) ms info) by (eapply Forall2_impl; [exact HF|]; intros ? ? [_ ?]; done).
  assert (0 <= sd). { apply zlook_Some_lt in Hi as Hri. rewrite zlook_to_nat in Hi by lia. destruct (Forall2_lookup_l _ _ _ _ _ HN Hi) as (pp & _ & Hn). by destruct (nodes_len _ _ _ Hn) as (_ & _ & ? & _). }
  split; [done|]. split; [done|]. split; [done|]. split; [done|]. split; [done|]. split; [by eapply joined_nodes|]. intros j mj k q Hj Hq. by eapply joined_points.
Qed.
Lemma put_few ms : zlen ms <= 1 -> PutUMeshesOnSameAggregatedCoords ms = Ok ms.
Proof. intros H. unfold PutUMeshesOnSameAggregatedCoords. pose proof (zlen_nonneg ms). replace ((zlen ms =? 0) || (zlen ms =? 1)) with true by lia. done. Qed.
Lemma put_throw ms : 2 <= zlen ms -> (forall m d, Some m ∈ ms -> um_coords m = Some d -> da_wf d) ->
  None ∈ ms \/ (exists m, Some m ∈ ms /\ (um_conn m = None \/ um_connI m = None \/ um_coords m = None)) \/
    (exists m m' d d', Some m ∈ ms /\ Some m' ∈ ms /\ um_coords m = Some d /\ um_coords m' = Some d' /\ da_nc d <> da_nc d') -> PutUMeshesOnSameAggregatedCoords ms = Throw.
Proof.
  intros Hl Hw Hor. unfold PutUMeshesOnSameAggregatedCoords. replace ((zlen ms =? 0) || (zlen ms =? 1)) with false by lia.
  match goal with |- context [foldM ?f _ _] => set (F := f) end.
  set (good := fun o : option umesh => exists m c cI d, o = Some m /\ um_conn m = Some c /\ um_connI m = Some cI /\ um_coords m = Some d).
  assert (Hdec : forall o, good o \/ ~ good o). { intros [m|]; [|right; intros (m & c & cI & d & E & _); done]. destruct (um_conn m) as [c|] eqn:E1; [|right; intros (m' & c & cI & d & E & ? & _); congruence].
    destruct (um_connI m) as [cI|] eqn:E2; [|right; intros (m' & c' & cI & d & E & ? & ? & _); congruence]. destruct (um_coords m) as [d|] eqn:E3; [left; by exists m, c, cI, d|right; intros (m' & c' & cI' & d & E & ? & ? & ?); congruence]. }
  destruct (Forall_or_ex good ms) as [Hg|(o & Ho & Hbad)]; [intros; apply Hdec| |].
  - assert (Hf : exists l, ms = Some <$> l). { clear -Hg. induction ms as [|o ms IH]; [by exists []|]. destruct IH as [l ->]; [intros; apply Hg; by right|]. destruct (Hg o) as (m & _ & _ & _ & -> & _); [left|]. by exists (m :: l). }
    destruct Hf as [l ->]. assert (HF : forall r pre, (forall m, m ∈ r -> m ∈ l) -> foldM F (Some <$> r) pre = Ok (pre ++ r)).
    { induction r as [|m r IH]; intros pre Hr; [cbn; by rewrite app_nil_r|]. rewrite fmap_cons. cbn [foldM]. unfold F at 1. destruct (Hg (Some m)) as (m' & c & cI & d & E & E1 & E2 & E3); [apply elem_of_list_fmap; exists m; split; [done|apply Hr; left]|]. injection E as <-. unfold checkConnectivityFullyDefined. rewrite E2, E1, E3. cbn [bind].
      rewrite IH by (intros; apply Hr; by right). by rewrite <- app_assoc. }
    rewrite HF by done. cbn [bind app].
    assert (Hwf : forall d, Some d ∈ um_coords <$> l -> da_wf d). { intros d Hd. apply elem_of_list_fmap in Hd as (m & E & Hm). apply (Hw m d); [apply elem_of_list_fmap; eauto|done]. }
    rewrite (proj2 (aggregate_throw (um_coords <$> l) Hwf)); [done|].
    destruct Hor as [Hor|[(m & Hm & Hor)|(m & m' & d & d' & Hm & Hm' & Hd & Hd' & Hne)]].
    + apply elem_of_list_fmap in Hor as (? & ? & _). done.
    + exfalso. destruct (Hg _ Hm) as (m' & c & cI & d & E & E1 & E2 & E3). injection E as <-. destruct Hor as [?|[?|?]]; congruence.
    + right. exists d, d'. apply elem_of_list_fmap in Hm as (? & E & Hm). injection E as <-. apply elem_of_list_fmap in Hm' as (? & E & Hm'). injection E as <-. split; [apply elem_of_list_fmap; eauto|]. split; [apply elem_of_list_fmap; eauto|done].
  - assert (HF : forall r pre, o ∈ r -> foldM F r pre = Throw); [|rewrite HF; done]. induction r as [|z r IH]; intros pre Hr; [by apply elem_of_nil in Hr|]. cbn [foldM]. destruct (Hdec z) as [(m & c & cI & d & -> & E1 & E2 & E3)|Hz].
    + unfold F at 1. unfold checkConnectivityFullyDefined. rewrite E2, E1, E3. cbn [bind]. apply IH. apply elem_of_cons in Hr as [->|Hr]; [|done]. destruct Hbad. by exists m, c, cI, d.
    + unfold F at 1. destruct z as [m|]; [|done]. unfold checkConnectivityFullyDefined. destruct (um_connI m) as [cI|] eqn:E2; [|done]. destruct (um_conn m) as [c|] eqn:E1; [|done]. destruct (um_coords m) as [d|] eqn:E3; [|done]. destruct Hz. by exists m, c, cI, d.
Qed.
