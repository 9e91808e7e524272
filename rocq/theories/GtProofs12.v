From Coq Require Import QArith ZifyBool ZifyNat Sorted.
From stdpp Require Import gmap.
From Verif Require Import CellModel Base DataArray ArrLib FillLib IndexSpec IndexModel IndexProofs2 SkyModel SkyProofs CellTable CellProofs5 GlModel UmModel UmSpec UmProofs MgSpec MgModel MgProofs GtModel GtSpec GtSpec2 GtProofs GtProofs2 GtProofs8 GtProofs10 GtProofs11.
Local Open Scope Z_scope.

(** * Merge of meshes of different dimensions of space *)
Lemma foldM_total {X St} (f : St -> X -> res St) xs : forall s, (forall s x, x ∈ xs -> exists s', f s x = Ok s') -> exists s', foldM f xs s = Ok s'.
Proof. induction xs as [|x r IH]; intros s H; [by exists s|]. cbn [foldM]. destruct (H s x ltac:(left)) as [s' ->]. cbn [bind]. apply IH. intros s2 y Hy. apply H. by right. Qed.
Lemma nodesArray_throw (ds : list (da Q)) d d' : (forall x, x ∈ ds -> da_alloc x = true) -> d ∈ ds -> d' ∈ ds -> da_nc d <> da_nc d' -> MergeNodesArray (nodes_only <$> (Some <$> ds)) = Throw.
Proof.
  intros Hal Hd Hd' Hne. destruct ds as [|d0 ds]; [by apply elem_of_nil in Hd|]. rewrite !fmap_cons. unfold MergeNodesArray. cbn [um_coords nodes_only]. rewrite (Hal d0) by left. cbn [negb ifthrow].
  assert (Hex : exists x, x ∈ ds /\ da_nc x <> da_nc d0). { apply elem_of_cons in Hd as [->|Hd], Hd' as [->|Hd']; [done|by exists d'; split|by exists d|]. destruct (decide (da_nc d = da_nc d0)) as [E|]; [|by exists d]. exists d'. split; [done|]. congruence. }
  assert (G : forall s, foldM (fun coo m => match um_coords m with None => Throw | Some d => throw_if negb (da_alloc d) >>> throw_if negb (da_nc d =? da_nc d0) >>> Ok (coo ++ [Some d]) end) (nodes_only <$> (Some <$> ds)) s = Throw); [|by rewrite G].
  assert (Hal' : forall x, x ∈ ds -> da_alloc x = true) by (intros x Hx; apply Hal; by right). clear Hal Hd Hd' Hne. induction ds as [|x r IH]; intros s; [destruct Hex as (x & Hx & _); by apply elem_of_nil in Hx|]. rewrite !fmap_cons. cbn [foldM um_coords nodes_only]. rewrite (Hal' x) by left. cbn [negb ifthrow]. destruct (Z.eqb_spec (da_nc x) (da_nc d0)) as [E|]; [|done]. cbn [negb ifthrow bind].
  apply IH; [|intros y Hy; apply Hal'; by right]. destruct Hex as (y & Hy & Hn). apply elem_of_cons in Hy as [->|Hy]; [done|]. by exists y.
Qed.
Lemma all_Some {X} (co : X -> option (da Q)) sd (ms : list X) : exists ds, (fun m => Some (default (DA true sd []) (co m))) <$> ms = Some <$> ds /\ (forall x, x ∈ ds -> x = DA true sd [] \/ exists m, m ∈ ms /\ co m = Some x) /\ (forall m d, m ∈ ms -> co m = Some d -> d ∈ ds).
Proof.
  exists ((fun m => default (DA true sd []) (co m)) <$> ms). split; [by rewrite <- list_fmap_compose|]. split.
  - intros x Hx. apply elem_of_list_fmap in Hx as (m & -> & Hm). destruct (co m) as [d|] eqn:E; [right; exists m; split; [done|]; cbn; congruence|left; done].
  - intros m d Hm Hd. apply elem_of_list_fmap. exists m. rewrite Hd. done.
Qed.
Lemma brings_alloc d sd nb a : nodes_in (nodes_only d) sd nb \/ d = None /\ nb = 0 -> d = Some a -> da_alloc a = true.
Proof. intros [(x & E & Ha & _)|[-> _]] E'; [|done]. cbn in E. congruence. Qed.
Lemma first_some {X} (co : X -> option (da Q)) (ms : list X) m : m ∈ ms -> is_Some (co m) -> exists sd, firstSpaceDim (co <$> ms) = Ok sd.
Proof.
  intros Hm Hs. unfold firstSpaceDim. destruct (omap id (co <$> ms)) as [|x r] eqn:E; [|by eexists]. exfalso. destruct Hs as [x Hx]. assert (x ∈ omap id (co <$> ms)) as Hin; [|rewrite E in Hin; by apply elem_of_nil in Hin]. apply elem_of_list_omap. exists (Some x). split; [|done]. apply elem_of_list_fmap. by exists m.
Qed.
Lemma s_merge_dims k ms : GetCellModel (cm_type k) = Ok k -> cm_dyn k = false -> (forall m, m ∈ ms -> exists sd p, s_brings k sd m p) ->
  (exists m m' d d', m ∈ ms /\ m' ∈ ms /\ sg_coords m = Some d /\ sg_coords m' = Some d' /\ da_nc d <> da_nc d') -> S_Merge1SGTUMeshes ms = Throw.
Proof.
  intros Hk Hd Hb (m & m' & d & d' & Hm & Hm' & Ed & Ed' & Hne). unfold S_Merge1SGTUMeshes. destruct ms as [|m0 r]; [by apply elem_of_nil in Hm|]. destruct (forallb _ _); [|done]. cbn [negb ifthrow]. destruct (first_some sg_coords (m0 :: r) m Hm ltac:(by rewrite Ed)) as [sd ->]. cbn [bind].
  assert (Hh : forall x, x ∈ m0 :: r -> exists cs, s_holds (S_buildSetInstanceFromThis x sd) cs). { intros x Hx. destruct (Hb x Hx) as (sd' & p & Ek & [(H1 & H2 & H3 & H4)|[H4 Hp]] & _).
    - exists p.1. split; [done|]. split; [done|]. split; [done|]. unfold S_buildSetInstanceFromThis. cbn [sg_conn]. by rewrite H4.
    - exists []. unfold S_buildSetInstanceFromThis. split; cbn [sg_cm]; rewrite Ek; [done|]. split; [done|]. split; [intros c Hc; by apply elem_of_nil in Hc|]. cbn [sg_conn]. by rewrite H4. }
  unfold S_Merge1SGTUMeshesLL. rewrite fmap_cons. destruct (Hh m0 ltac:(left)) as [cs0 H0]. rewrite (s_num _ _ H0). cbn [bind]. rewrite (s_perCell _ _ H0). cbn [bind].
  match goal with |- context[foldM ?f ?l ?s] => assert (E1 : (exists n, foldM f l s = Ok n) \/ foldM f l s = Throw) end.
  { assert (Hr : forall x, x ∈ r -> exists cs, s_holds (S_buildSetInstanceFromThis x sd) cs) by (intros x Hx; apply Hh; by right). generalize (zlen cs0). clear - Hr. induction r as [|x r IH]; intros n; [left; by eexists|]. rewrite fmap_cons. cbn [foldM]. destruct (negb _); [by right|]. cbn [ifthrow]. destruct (Hr x ltac:(left)) as [cs Hx]. rewrite (s_num _ _ Hx). cbn [bind]. apply IH. intros y Hy. apply Hr. by right. }
  destruct E1 as [[n ->]| ->]; [|done]. cbn [bind]. destruct (all_Some sg_coords sd (m0 :: r)) as (ds & Eds & Hal & Hin).
  assert (E2 : (fun m => UM 0 (sg_coords m) None None []) <$> (S_buildSetInstanceFromThis m0 sd :: ((fun m => S_buildSetInstanceFromThis m sd) <$> r)) = nodes_only <$> (Some <$> ds)). { rewrite <- Eds, <- list_fmap_compose. rewrite !fmap_cons. f_equal. rewrite <- list_fmap_compose. done. }
  rewrite E2. rewrite (nodesArray_throw ds d d'); [done| |by apply (Hin m)|by apply (Hin m')|done]. intros x Hx. destruct (Hal x Hx) as [->|(y & Hy & Ey)]; [done|]. destruct (Hb y Hy) as (sd' & p & _ & _ & Hn). by eapply brings_alloc.
Qed.
Lemma d_merge_dims k ms : GetCellModel (cm_type k) = Ok k -> cm_dyn k = true -> (forall m, m ∈ ms -> exists sd p, d_brings k sd m p) ->
  (exists m m' d d', m ∈ ms /\ m' ∈ ms /\ dg_coords m = Some d /\ dg_coords m' = Some d' /\ da_nc d <> da_nc d') -> D_Merge1DGTUMeshes ms = Throw.
Proof.
  intros Hk Hd Hb (m & m' & d & d' & Hm & Hm' & Ed & Ed' & Hne). unfold D_Merge1DGTUMeshes. destruct ms as [|m0 r]; [by apply elem_of_nil in Hm|]. destruct (forallb _ _); [|done]. cbn [negb ifthrow]. destruct (first_some dg_coords (m0 :: r) m Hm ltac:(by rewrite Ed)) as [sd ->]. cbn [bind].
  assert (Hh : forall x, x ∈ m0 :: r -> exists cs, d_holds (D_buildSetInstanceFromThis x sd) cs). { intros x Hx. destruct (Hb x Hx) as (sd' & p & Ek & [(H1 & H2 & H3 & conn & connI & f & E1 & E2 & Hr)|(E1 & E2 & Hp)] & _).
    - exists p.1. split; [done|]. split; [done|]. split; [done|]. exists conn, connI, f. unfold D_buildSetInstanceFromThis. cbn [dg_conn dg_connI]. by rewrite E1, E2.
    - exists []. unfold D_buildSetInstanceFromThis. split; cbn [dg_cm]; rewrite Ek; [done|]. split; [done|]. split; [intros c Hc; by apply elem_of_nil in Hc|]. exists [], [0], 0. cbn [dg_conn dg_connI]. rewrite E1, E2. split; [done|]. split; [done|]. split; [done|]. split; [intros i c Hi; by rewrite zlook_nil in Hi|]. done. }
  assert (Hs : forall x, x ∈ m0 :: r -> exists n o y, D_getNumberOfCells (D_buildSetInstanceFromThis x sd) = Ok n /\ D_copyWithNodalConnectivityPacked (D_buildSetInstanceFromThis x sd) = Ok (o, y)).
  { intros x Hx. destruct (Hh x Hx) as [cs Hc]. destruct (d_data _ _ Hc) as (? & ? & _ & _ & _ & _ & En & _). destruct (d_pack _ _ Hc) as (o & y & Ey & _); [done|]. eauto. }
  unfold D_Merge1DGTUMeshesLL. rewrite fmap_cons. destruct (Hs m0 ltac:(left)) as (n0 & o0 & y0 & En0 & Eo0). rewrite En0. cbn [bind]. rewrite Eo0. cbn [bind]. change (nodesOfArr (dg_coords (D_buildSetInstanceFromThis m0 sd))) with (Ok (da_nt (default (DA true sd []) (dg_coords m0)))). cbn [bind].
  match goal with |- context[foldM ?f ?l ?s] => assert (E1 : (exists n, foldM f l s = Ok n) \/ foldM f l s = Throw) end.
  { assert (Hr : forall x, x ∈ r -> exists n o y, D_getNumberOfCells (D_buildSetInstanceFromThis x sd) = Ok n /\ D_copyWithNodalConnectivityPacked (D_buildSetInstanceFromThis x sd) = Ok (o, y)) by (intros x Hx; apply Hs; by right). match goal with |- context[foldM _ _ ?s] => generalize s end. clear - Hr. induction r as [|x r IH]; intros [[[a b] c] e]; [left; by eexists|]. rewrite fmap_cons. cbn [foldM]. destruct (negb _); [by right|]. cbn [ifthrow]. destruct (Hr x ltac:(left)) as (n & o & y & En & Eo). rewrite Eo. cbn [bind]. rewrite En. cbn [bind]. change (nodesOfArr (dg_coords (D_buildSetInstanceFromThis x sd))) with (Ok (da_nt (default (DA true sd []) (dg_coords x)))). cbn [bind]. apply IH. intros z Hz. apply Hr. by right. }
  destruct E1 as [[[[[a b] c] e] ->]| ->]; [|done]. cbn [bind]. destruct (all_Some dg_coords sd (m0 :: r)) as (ds & Eds & Hal & Hin).
  assert (E2 : (fun m => UM 0 (dg_coords m) None None []) <$> (D_buildSetInstanceFromThis m0 sd :: ((fun m => D_buildSetInstanceFromThis m sd) <$> r)) = nodes_only <$> (Some <$> ds)). { rewrite <- Eds, <- list_fmap_compose. rewrite !fmap_cons. f_equal. rewrite <- list_fmap_compose. done. }
  rewrite E2. rewrite (nodesArray_throw ds d d'); [done| |by apply (Hin m)|by apply (Hin m')|done]. intros x Hx. destruct (Hal x Hx) as [->|(y & Hy & Ey)]; [done|]. destruct (Hb y Hy) as (sd' & p & _ & _ & Hn). by eapply brings_alloc.
Qed.

(** * A line from its parts *)
Lemma find_part (parts : list (list Z)) v q : (forall p, p ∈ parts -> p <> []) -> NoDup (head <$> parts) -> q ∈ parts -> head q = Some v -> findPart parts (replicate (length parts) true) v = Ok (Some q).
Proof.
  intros Hne Hnd Hq Hv. induction parts as [|p r IH]; [by apply elem_of_nil in Hq|]. rewrite fmap_cons in Hnd. apply NoDup_cons in Hnd as (Hp & Hnd). cbn [length replicate findPart]. destruct p as [|x t] eqn:Ep; [by destruct (Hne [] ltac:(left))|]. apply elem_of_cons in Hq as [->|Hq].
  - cbn in Hv. injection Hv as ->. by rewrite Z.eqb_refl.
  - destruct (Z.eqb_spec x v) as [->|]; [|apply IH; [intros z Hz; apply Hne; by right|done|done]]. exfalso. apply Hp. apply elem_of_list_fmap. exists q. done.
Qed.
Lemma find_none (parts : list (list Z)) v : (forall p, p ∈ parts -> p <> []) -> (forall p, p ∈ parts -> head p <> Some v) -> findPart parts (replicate (length parts) true) v = Ok None.
Proof.
  intros Hne Hv. induction parts as [|p r IH]; [done|]. cbn [length replicate findPart]. destruct p as [|x t] eqn:Ep; [by destruct (Hne [] ltac:(left))|]. destruct (Z.eqb_spec x v) as [->|]; [by destruct (Hv (v :: t) ltac:(left))|]. apply IH; intros z Hz; [apply Hne|apply Hv]; by right.
Qed.
Lemma last_follow (ret q : list Z) v w : last ret = Some v -> head q = Some v -> last q = Some w -> last (ret ++ tail q) = Some w.
Proof. intros H1 H2 H3. destruct q as [|x t]; [done|]. cbn in H2. injection H2 as ->. cbn [tail]. rewrite last_app. rewrite last_cons in H3. destruct (last t); [done|]. congruence. Qed.
Section LINE.
Context (p0 : list Z) (rest : list (list Z)).
Let parts := p0 :: rest.
Let step := fun '((ret, ref, nbh) : list Z * Z * Z) => let* f := findPart parts (false :: replicate (length rest) true) ref in
        match f with
        | None => Throw
        | Some p => let ret := ret ++ tail p in let* ref := match last ret with Some v => Ok v | None => UB end in Ok (ret, ref, nbh + 1)
        end.
Lemma line_loop qs : (forall p, p ∈ rest -> p <> []) -> NoDup (head <$> rest) -> forall ret v nbh fuel, last ret = Some v -> follow v qs -> (forall q, q ∈ qs -> q ∈ rest) -> nbh + zlen qs = zlen parts -> (length qs < fuel)%nat ->
  exists w, whileM fuel (fun '(_, _, nbh) => Ok (nbh <? zlen parts)) step (ret, v, nbh) = Ok (ret ++ concat ((fun q => drop 1 q) <$> qs), w, zlen parts).
Proof.
  intros Hne Hnd. induction qs as [|q r IH]; intros ret v nbh fuel Hl Hf Hin Hz Hfuel; (destruct fuel as [|fuel]; [cbn in Hfuel; lia|]); cbn [whileM bind].
  - change (zlen (@nil (list Z))) with 0 in Hz. replace (nbh <? zlen parts) with false by lia. exists v. cbn [fmap list_fmap concat]. rewrite app_nil_r. do 3 f_equal. lia.
  - rewrite zlen_cons in Hz. pose proof (zlen_nonneg r). replace (nbh <? zlen parts) with true by lia. destruct Hf as (w & Hv & Hw & Hf). unfold step at 1. unfold parts at 1. cbn [findPart]. rewrite (find_part rest v q) by (done || apply Hin; left). cbn [bind]. rewrite (last_follow ret q v w Hl Hv Hw). cbn [bind].
    destruct (IH (ret ++ tail q) w (nbh + 1) fuel) as [w' E]; [by apply last_follow with v|done|intros z Hz'; apply Hin; by right|lia|cbn [length] in Hfuel; lia|]. exists w'. rewrite E. rewrite fmap_cons. cbn [concat]. rewrite <- app_assoc. replace (drop 1 q) with (tail q) by (by destruct q). done.
Qed.
Lemma line_ok qs v : (forall p, p ∈ rest -> p <> []) -> NoDup (head <$> rest) -> last p0 = Some v -> follow v qs -> qs ≡ₚ rest -> BuildAPolygonFromParts (p0 :: rest) = Ok (line_of p0 qs).
Proof.
  intros Hne Hnd Hl Hf Hp. unfold BuildAPolygonFromParts. rewrite Hl. cbn [bind]. destruct (line_loop qs Hne Hnd p0 v 1 (Datatypes.S (length (p0 :: rest))) Hl Hf) as [w E].
  - intros q Hq. by rewrite <- Hp.
  - unfold parts. rewrite zlen_cons. unfold zlen. rewrite Hp. done.
  - cbn [length]. rewrite Hp. lia.
  - unfold step, parts in E. rewrite E. cbn [bind]. unfold line_of. set (l := p0 ++ _). assert (Hl' : l <> []). { unfold l. destruct p0; [done|discriminate]. } destruct l as [|x t] eqn:El; [done|]. rewrite last_cons. cbn [head hd_error]. destruct (last t) as [y|]; cbn [decide]; case_decide as Hd.
    + injection Hd as ->. by rewrite Z.eqb_refl.
    + destruct (Z.eqb_spec y x) as [->|]; [done|done].
    + by rewrite Z.eqb_refl.
    + done.
Qed.
Lemma line_throw v : rest <> [] -> (forall p, p ∈ rest -> p <> []) -> last p0 = Some v -> (forall p, p ∈ rest -> head p <> Some v) -> BuildAPolygonFromParts (p0 :: rest) = Throw.
Proof.
  intros Hr Hne Hl Hv. unfold BuildAPolygonFromParts. rewrite Hl. cbn [bind]. cbn [length whileM bind]. rewrite zlen_cons. assert (0 < zlen rest) by (destruct rest as [|q r]; [done|]; rewrite zlen_cons; pose proof (zlen_nonneg r); lia). replace (1 <? 1 + zlen rest) with true by lia. cbn [findPart]. rewrite find_none by done. done.
Qed.
End LINE.
