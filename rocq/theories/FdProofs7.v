(** Renumbering of the nodes of a field. *)
From Coq Require Import QArith Qabs ZifyBool ZifyNat.
From Verif Require Import Base DataArray ArrLib StdModel StdProofs RenumModel RenumSpec RenumProofs RenumProofs2 SlicesModel SlicesSpec SlicesProofs IndexSpec IndexModel IndexProofs IndexProofs2 PermProofs FillLib CellTable SkyModel SkyProofs UmModel UmSpec UmProofs UmProofs2 UmProofs5 UmProofs9 UmProofs10 UcModel GlModel GlSpec GlProofs FdModel FdSpec FdProofs FdProofs2 FdProofs3 FdProofs4 FdProofs5 FdProofs6.
Local Open Scope Z_scope.

Lemma n2o_ok p (a : da Q) nt : sized a nt -> (forall v, v ∈ p -> 0 <= v < nt) ->
  exists r, RenumberEntitiesFromN2OArr p a = Ok r /\ da_nc r = da_nc a /\ sized r (zlen p) /\ forall i v j, p @ i = Some v -> ij r i j = ij a v j.
Proof.
  intros (Ha & Hwf & Hnc & Hnt) Hr. pose proof (da_wf_len a Hwf) as (Hvl & Hn0 & _). rewrite Hnt in *. set (nc := da_nc a) in *. set (src := da_vals a) in *. pose proof (zlen_nonneg p) as Hp0.
  set (blk := fun v => sub src (v * nc) ((v + 1) * nc)). unfold RenumberEntitiesFromN2OArr, checkAllocated. rewrite Ha. cbn [negb ifthrow]. fold nc src.
  assert (Hbl : forall v, v ∈ p -> zlen (blk v) = nc) by (intros v Hv; specialize (Hr v Hv); unfold blk; rewrite zlen_sub by nia; lia).
  match goal with |- context [forZ ?x ?y ?f ?s0] => assert (W : wp (forZ x y f s0) (fun r => r = Some <$> concat (blk <$> p)) False) end.
  { apply (wp_forZ (fun i r => r = (Some <$> concat (blk <$> take (Z.to_nat i) p)) ++ malloc Q (nc * (zlen p - i)))); [lia| | |].
    - by rewrite Z.sub_0_r.
    - intros i r Hi ->. destruct (zlook_lt p i Hi) as [v Hv]. rewrite (rd_ok _ _ _ Hv). cbn [bind]. assert (Hin : v ∈ p) by (by eapply zlook_elem). specialize (Hr v Hin).
      assert (Hcl : zlen (concat (blk <$> take (Z.to_nat i) p)) = i * nc).
      { rewrite zlen_concat. assert (E : zlen <$> (blk <$> take (Z.to_nat i) p) = (fun _ => nc) <$> take (Z.to_nat i) p). { rewrite <- list_fmap_compose. apply list_fmap_ext. intros k x Hx. apply Hbl. apply elem_of_list_lookup_2, elem_of_take in Hx as (j & Hj & _). by eapply elem_of_list_lookup_2. }
        rewrite E. assert (F : forall l : list Z, zsum ((fun _ => nc) <$> l) = zlen l * nc). { induction l as [|y l IH]; [done|]. rewrite fmap_cons. change (zsum (nc :: ((fun _ => nc) <$> l))) with (nc + zsum ((fun _ => nc) <$> l)). rewrite IH, zlen_cons. lia. } rewrite F, zlen_take. rewrite Z.min_l by lia. lia. }
      rewrite copyc_fill; [|nia|nia|nia|nia|by rewrite Hcl]. cbn [wp]. replace (Z.to_nat (i + 1)) with (S (Z.to_nat i)) by lia. rewrite zlook_to_nat in Hv by lia. rewrite (take_S_r _ _ _ Hv), (fmap_app blk), concat_app. change (blk <$> [v]) with [blk v]. cbn [concat]. rewrite app_nil_r. f_equal. f_equal. nia.
    - intros r ->. rewrite Z.sub_diag, Z.mul_0_r, app_nil_r, firstn_all2; [done|unfold zlen; lia]. }
  apply wp_ok in W as (r & -> & ->). cbn [bind]. rewrite initialised_ok. cbn [bind]. eexists. split; [reflexivity|]. split; [done|]. cbn [da_nc].
  assert (Hlen : zlen (concat (blk <$> p)) = zlen p * nc).
  { rewrite zlen_concat. assert (E : zlen <$> (blk <$> p) = (fun _ => nc) <$> p). { rewrite <- list_fmap_compose. apply list_fmap_ext. intros k x Hx. apply Hbl. by eapply elem_of_list_lookup_2. }
    rewrite E. clear. induction p as [|y l IH]; [done|]. rewrite fmap_cons. change (zsum (nc :: ((fun _ => nc) <$> l))) with (nc + zsum ((fun _ => nc) <$> l)). rewrite IH, zlen_cons. lia. }
  split.
  { split; [done|]. split; [split; [cbn; lia|exists (zlen p); done]|]. split; [done|]. apply da_nt_mul; cbn; lia. }
  intros i v j Hv. apply zlook_Some_lt in Hv as ?. assert (Hin : v ∈ p) by (by eapply zlook_elem). specialize (Hr v Hin). unfold ij. cbn [da_nc da_vals]. fold nc src. replace (0 <=? i) with true by lia. replace (0 <=? v) with true by lia. cbn [andb]. destruct (Z.leb_spec 0 j); [|done]. destruct (Z.ltb_spec j nc); [|done]. cbn [andb].
  assert (E : p = take (Z.to_nat i) p ++ v :: drop (Z.to_nat (i + 1)) p). { rewrite zlook_to_nat in Hv by lia. replace (Z.to_nat (i + 1)) with (S (Z.to_nat i)) by lia. symmetry. by apply take_drop_middle. }
  assert (Hcl : zlen (concat (blk <$> take (Z.to_nat i) p)) = i * nc).
  { rewrite zlen_concat. assert (E' : zlen <$> (blk <$> take (Z.to_nat i) p) = (fun _ => nc) <$> take (Z.to_nat i) p). { rewrite <- list_fmap_compose. apply list_fmap_ext. intros k x Hx. apply Hbl. apply elem_of_list_lookup_2, elem_of_take in Hx as (q & Hq & _). by eapply elem_of_list_lookup_2. }
    rewrite E'. assert (F : forall l : list Z, zsum ((fun _ => nc) <$> l) = zlen l * nc). { induction l as [|y l IH]; [done|]. rewrite fmap_cons. change (zsum (nc :: ((fun _ => nc) <$> l))) with (nc + zsum ((fun _ => nc) <$> l)). rewrite IH, zlen_cons. lia. } rewrite F, zlen_take. rewrite Z.min_l by lia. lia. }
  rewrite E at 1. rewrite fmap_app, concat_app, fmap_cons. cbn [concat]. rewrite zlook_app_r by lia. rewrite Hcl. replace (i * nc + j - i * nc) with j by lia. rewrite zlook_app_l by (rewrite Hbl by done; lia). unfold blk. rewrite zlook_sub by nia. replace (j <? (v + 1) * nc - v * nc) with true by nia. done.
Qed.
Lemma foldl_max r x : x <= foldl Z.max x r /\ (forall v, v ∈ r -> v <= foldl Z.max x r) /\ (foldl Z.max x r = x \/ foldl Z.max x r ∈ r).
Proof.
  revert x. induction r as [|y r IH]; intros x; cbn [foldl]; [split; [lia|]; split; [intros v Hv; by apply elem_of_nil in Hv|by left]|]. destruct (IH (Z.max x y)) as (H1 & H2 & H3). split; [lia|]. split.
  - intros v Hv. apply elem_of_cons in Hv as [->|Hv]; [lia|by apply H2].
  - destruct H3 as [H3|H3]; [|right; by right]. destruct (Z.max_spec x y) as [[_ E]|[_ E]]; rewrite H3, E; [right; by left|by left].
Qed.
(** The arrays one after the other. *)
Lemma arrays_or big eps p newNb (arrs : list (option (da Q))) nt : (forall a, Some a ∈ arrs -> sized a nt /\ unmarked big a) -> zlen p = nt -> 0 <= newNb -> (forall v, v ∈ p -> v < newNb) ->
  let run := foldM (fun done a => match a with None => Ok (done ++ [None]) | Some a => let* r := RenumberEntitiesFromO2NArr big eps p newNb a in Ok (done ++ [Some r]) end) in
  forall pre, (exists arrs', run arrs pre = Ok (pre ++ arrs') /\ (forall a, Some a ∈ arrs -> agree eps p a) /\
     Forall2 (fun a a' => match a, a' with None, None => True | Some a, Some a' => da_nc a' = da_nc a /\ sized a' newNb /\ (forall n i j, 0 <= n -> first_pos p n i -> ij a' n j = ij a i j) | _, _ => False end) arrs arrs') \/
  (run arrs pre = Throw /\ exists a, Some a ∈ arrs /\ ~ agree eps p a).
Proof.
  intros H Hp Hn Hv run. induction arrs as [|[a|] arrs IH]; intros pre; unfold run; cbn [foldM].
  - left. exists []. split; [by rewrite app_nil_r|]. split; [|done]. intros a Ha. by apply elem_of_nil in Ha.
  - destruct (H a ltac:(left)) as [Hs Hm]. destruct (entities_ok big eps p newNb a nt Hs Hp Hn Hv Hm) as [(r & -> & Hag & H1 & H2 & H3 & _)|[-> Hag]]; cbn [bind].
    + destruct (IH ltac:(intros x Hx; apply H; by right) (pre ++ [Some r])) as [(arrs' & E & Hal & HF)|(E & x & Hx & Hna)].
      * left. exists (Some r :: arrs'). fold run. rewrite E, <- app_assoc. split; [done|]. split; [|by constructor]. intros x Hx. apply elem_of_cons in Hx as [[= ->]|Hx]; [done|by apply Hal].
      * right. split; [exact E|]. exists x. split; [by right|done].
    + right. split; [done|]. exists a. split; [left|done].
  - cbn [bind]. destruct (IH ltac:(intros x Hx; apply H; by right) (pre ++ [None])) as [(arrs' & E & Hal & HF)|(E & x & Hx & Hna)].
    + left. exists (None :: arrs'). fold run. rewrite E, <- app_assoc. split; [done|]. split; [|by constructor]. intros x Hx. apply elem_of_cons in Hx as [[=]|Hx]. by apply Hal.
    + right. split; [exact E|]. exists x. split; [by right|done].
Qed.
Lemma renumber_nodes big eps (f : field Q) cells nb p newNb : on_nodes f cells nb -> typed (fd_mesh f) cells -> zlen p = nb -> 0 < newNb -> (forall v, v ∈ p -> v < newNb) -> (forall t, 0 <= t < newNb -> t ∈ p) -> (forall a, Some a ∈ fd_arrs f -> unmarked big a) ->
  (exists f', fieldRenumberNodes big eps f p = Ok f' /\ (forall a, Some a ∈ fd_arrs f -> agree eps p a) /\ on_nodes f' (rename (ren p) <$> cells) newNb /\ typed (fd_mesh f') (rename (ren p) <$> cells) /\ um_dim (fd_mesh f') = um_dim (fd_mesh f) /\
     (forall t i q, 0 <= t -> last_pos p t i -> point (fd_mesh f) i q -> point (fd_mesh f') t q) /\ (forall t i, 0 <= t -> first_pos p t i -> same_values f i f' t)) \/
  (fieldRenumberNodes big eps f p = Throw /\ exists a, Some a ∈ fd_arrs f /\ ~ agree eps p a).
Proof.
  intros (Hp1 & Hs & (d & Hd & Hsz) & Hu & Ha) Hty Hl Hn Hv Hon Hm. pose proof Hsz as (Hal & Hwf & Hnc & Hnt). unfold fieldRenumberNodes, getNumberOfNodes. rewrite Hd, Hnt. cbn [bind]. rewrite Hl. replace (nb <? nb) with false by lia. cbn [ubif]. rewrite firstn_all2 by (unfold zlen in *; lia).
  assert (Hin : newNb - 1 ∈ p) by (apply Hon; lia). destruct p as [|x r] eqn:Ep; [by apply elem_of_nil in Hin|]. rewrite <- Ep in *.
  assert (Emax : foldl Z.max x r + 1 = newNb).
  { destruct (foldl_max r x) as (H1 & H2 & H3). assert (foldl Z.max x r < newNb) by (apply Hv; rewrite Ep; destruct H3 as [-> |H3]; [left|by right]). rewrite Ep in Hin. apply elem_of_cons in Hin as [E|Hin]; [lia|]. specialize (H2 _ Hin). lia. }
  rewrite Emax. unfold renumberNodesWithoutMesh. rewrite Hp1.
  destruct (arrays_or big eps p newNb (fd_arrs f) nb ltac:(intros a Hain; split; [by apply Ha|by apply Hm]) Hl ltac:(lia) Hv []) as [(arrs' & E & Hag & HF)|(E & Hag)]; rewrite E; cbn [bind app]; [left|right; done].
  destruct (renumberNodes_ok (fd_mesh f) cells nb p newNb d Hs Hty Hd Hal Hwf Hnc Hnt Hu Hl ltac:(lia) Hv Hon) as (m' & Em & Hs' & Ht' & Hd' & Hh & (d' & Ed' & En') & Hpt). cbn [fd_mesh]. rewrite Em. cbn [bind]. eexists. split; [reflexivity|]. cbn [fd_disc fd_arrs fd_mesh]. split; [done|]. split.
  { split; [done|]. split; [done|]. split.
    - destruct Hh as (d2 & Ed2 & H1 & H2 & H3). rewrite Ed2 in Ed'. injection Ed' as <-. exists d2. split; [done|]. split; [done|]. split; [done|]. split; [lia|done].
    - split.
      + intros n U. apply used_rename in U as (Hn0 & c & v & Hc & Hv' & E'). destruct (0 <=? v) eqn:Ev; [|lia]. unfold ren in E'. destruct (p @ v) as [y|] eqn:Ey; cbn in E'; [|lia]. subst y. apply Hv. by eapply zlook_elem.
      + intros a Hain. apply elem_of_list_lookup in Hain as [k Hk]. destruct (Forall2_lookup_r _ _ _ _ _ HF Hk) as ([y|] & _ & Hy); [|done]. apply Hy. }
  split; [done|]. split; [done|]. split; [done|]. intros t i Ht Hf. unfold same_values. cbn [fd_arrs]. eapply Forall2_impl; [exact HF|]. intros [y|] [y'|] Hy; try done. destruct Hy as (H1 & _ & H3). split; [done|]. intros j. by apply H3.
Qed.
(** The values of the other fields stay. *)
Lemma renumber_others big eps (f : field Q) cells nb d p newNb : fd_disc f <> P1 -> stores (fd_mesh f) cells -> um_coords (fd_mesh f) = Some d -> sized d nb -> (forall n, used cells n -> n < nb) -> typed (fd_mesh f) cells -> zlen p = nb -> 0 < newNb -> (forall v, v ∈ p -> v < newNb) -> (forall t, 0 <= t < newNb -> t ∈ p) ->
  exists m', fieldRenumberNodes big eps f p = Ok (FD (fd_disc f) m' (fd_arrs f)) /\ stores m' (rename (ren p) <$> cells) /\ typed m' (rename (ren p) <$> cells) /\ um_dim m' = um_dim (fd_mesh f) /\ has_nodes m' newNb /\
     (forall t i q, 0 <= t -> last_pos p t i -> point (fd_mesh f) i q -> point m' t q).
Proof.
  intros H1 Hs Hd Hsz Hu Hty Hl Hn Hv Hon. pose proof Hsz as (Hal & Hwf & Hnc & Hnt). unfold fieldRenumberNodes, getNumberOfNodes. rewrite Hd, Hnt. cbn [bind]. rewrite Hl. replace (nb <? nb) with false by lia. cbn [ubif]. rewrite firstn_all2 by (unfold zlen in *; lia).
  assert (Hin : newNb - 1 ∈ p) by (apply Hon; lia). destruct p as [|x r] eqn:Ep; [by apply elem_of_nil in Hin|]. rewrite <- Ep in *.
  assert (Emax : foldl Z.max x r + 1 = newNb).
  { destruct (foldl_max r x) as (H2 & H3 & H4). assert (foldl Z.max x r < newNb) by (apply Hv; rewrite Ep; destruct H4 as [-> |H4]; [left|by right]). rewrite Ep in Hin. apply elem_of_cons in Hin as [E|Hin]; [lia|]. specialize (H3 _ Hin). lia. }
  rewrite Emax. unfold renumberNodesWithoutMesh.
  match goal with |- context [foldM ?g (fd_arrs f) []] => assert (E : forall l pre, foldM g l pre = Ok (pre ++ l)) end.
  { induction l as [|[a|] l IH]; intros pre; cbn [foldM]; [by rewrite app_nil_r| |]; [destruct (fd_disc f) eqn:Ed; [|done| |]; cbn [bind]; rewrite IH, <- app_assoc; done|cbn [bind]; rewrite IH, <- app_assoc; done]. }
  rewrite E. cbn [bind app fd_mesh fd_disc fd_arrs]. destruct (renumberNodes_ok (fd_mesh f) cells nb p newNb d Hs Hty Hd Hal Hwf Hnc Hnt Hu Hl ltac:(lia) Hv Hon) as (m' & Em & Hs' & Ht' & Hd' & Hh & _ & Hpt). rewrite Em. cbn [bind]. exists m'. done.
Qed.
(** A mesh without nodes: the largest number of an empty array is read. *)
Lemma no_node big eps (f : field Q) d p : um_coords (fd_mesh f) = Some d -> da_nt d = 0 -> fieldRenumberNodes big eps f p = UB.
Proof. intros Hd Hn. unfold fieldRenumberNodes, getNumberOfNodes. rewrite Hd, Hn. cbn [bind]. pose proof (zlen_nonneg p). replace (zlen p <? 0) with false by lia. done. Qed.
