(** Part of a field. *)
From Coq Require Import QArith Qabs ZifyBool ZifyNat.
From Verif Require Import Base DataArray ArrLib StdModel StdProofs RenumModel RenumSpec RenumProofs RenumProofs2 SlicesModel SlicesSpec SlicesProofs IndexSpec IndexModel IndexProofs IndexProofs2 PermProofs FillLib CellTable SkyModel SkyProofs UmModel UmSpec UmProofs UmProofs2 UmProofs5 UmProofs9 UmProofs10 UcModel GlModel GlSpec GlProofs FdModel FdSpec FdProofs FdProofs2 FdProofs3.
Local Open Scope Z_scope.

(** * Selection in the arrays *)
Definition taken_arr {A} (di : list Z) (a a' : option (da A)) : Prop :=
  match a, a' with
  | None, None => True
  | Some a, Some a' => da_nc a' = da_nc a /\ sized a' (zlen di) /\ forall x y j, di @ x = Some y -> ij a' x j = ij a y j
  | _, _ => False
  end.
Lemma selectAll_ok {A} (sel : da A -> res (da (option A))) (arrs : list (option (da A))) di total :
  (forall a, Some a ∈ arrs -> sized a total) -> (forall v, v ∈ di -> 0 <= v < total) -> (forall a, Some a ∈ arrs -> sel a = mySelectByTupleIdSafe a di) ->
  exists arrs', selectAll sel arrs = Ok arrs' /\ Forall2 (taken_arr di) arrs arrs'.
Proof.
  intros Hs Hr Hsel. set (step := fun (a b : option (da A)) => taken_arr di a b /\ match a with None => b = None | Some a => exists r, sel a = Ok r /\ exists r', allWritten r = Ok r' /\ b = Some r' end).
  destruct (Forall2_has step arrs) as [bs Hb].
  { intros [a|] Hin; [|exists None; done]. destruct (Hs a Hin) as (Ha & Hwf & Hnc & Hnt). pose proof (selectSafe_wp a di Ha Hwf) as W. rewrite <- (Hsel a Hin) in W. destruct (sel a) as [r| | |] eqn:Er; cbn [wp] in W; try done.
    - destruct W as (_ & l & -> & Hl & Hat). exists (Some (DA true (da_nc a) l)). pose proof (zlen_nonneg di). split.
      + split; [done|]. split; [|intros x y j Hxy; by apply Hat]. split; [done|]. split; [split; [cbn; lia|exists (zlen di); done]|]. split; [done|]. by apply da_nt_mul.
      + eexists. split; [exact Er|]. exists (DA true (da_nc a) l). split; [|done]. unfold allWritten. cbn [da_vals da_alloc da_nc]. rewrite initialised_ok. done.
    - exfalso. destruct W as (v & Hv & Hn). rewrite Hnt in Hn. apply Hn. by apply Hr. }
  exists bs. split; [|eapply Forall2_impl; [exact Hb|by intros a b [? _]]]. unfold selectAll. apply (foldM_blocks _ step (fun bs => bs) arrs bs Hb). intros pre x b post _ [_ Hx]. destruct x as [a|]; [|by rewrite Hx].
  destruct Hx as (r & E & r' & E' & ->). rewrite E. cbn [bind]. rewrite E'. done.
Qed.
Lemma taken_sized {A} (arrs arrs' : list (option (da A))) di : Forall2 (taken_arr di) arrs arrs' -> forall a, Some a ∈ arrs' -> sized a (zlen di).
Proof. intros H a Ha. apply elem_of_list_lookup in Ha as [i Hi]. destruct (Forall2_lookup_r _ _ _ _ _ H Hi) as ([x|] & _ & Hm); [|done]. destruct Hm as (_ & ? & _). done. Qed.
Lemma values_taken {A} (arrs arrs' : list (option (da A))) di ns ns' i t n : Forall2 (taken_arr di) arrs arrs' -> ns @ i = Some n ->
  (forall k, 0 <= k < n -> di @ (zsum (take (Z.to_nat t) ns') + k) = Some (zsum (take (Z.to_nat i) ns) + k)) ->
  Forall2 (fun a a' => match a, a' with None, None => True | Some a, Some a' => da_nc a' = da_nc a /\ forall n k j, ns @ i = Some n -> 0 <= k < n -> value a' ns' t k j = value a ns i k j | _, _ => False end) arrs arrs'.
Proof.
  intros H Hn Hq. eapply Forall2_impl; [exact H|]. intros [a|] [a'|] Hm; try done. destruct Hm as (E & _ & Hm). split; [done|]. intros n' k j Hn' Hk. rewrite Hn in Hn'. injection Hn' as <-. unfold value. apply Hm. by apply Hq.
Qed.

(** * The tuples of the cells *)
Lemma explicit_blocks ns ids : (forall v, v ∈ ns -> 0 <= v) -> (forall i, i ∈ ids -> 0 <= i < zlen ns) ->
  (let* off := computeOffsetsFull (vec ns) in let* off := initialised off in let* s := buildExplicitArrByRanges (vec ids) (Some (vec off)) in initialised s) = Ok (blocks ns ids).
Proof.
  intros Hp Hr. destruct (offsetsFull_ok (vec ns)) as (r & Er & Hps); [done|done|]. cbn [da_vals vec] in Hps. rewrite Er. cbn [bind]. rewrite initialised_ok. cbn [bind].
  rewrite (explicit_ok (vec ids) (vec r)) with (blks := blk ns <$> ids); try done; [cbn [bind]; rewrite initialised_ok; done|]. cbn [da_vals vec].
  apply Forall2_fmap_r. apply Forall_Forall2_diag. apply Forall_forall. intros i Hi. specialize (Hr i Hi). destruct (zlook_lt ns i Hr) as [v Hv]. destruct (psums_delta _ _ _ _ Hps Hv) as (a & Ha & Ha'). exists a, (a + v). split; [done|]. split; [done|].
  assert (0 <= v) by (apply Hp; by eapply zlook_elem). split; [lia|]. unfold blk. rewrite Hv. change (default 0 (Some v)) with v. destruct Hps as [_ Hps]. rewrite (Hps i) in Ha by lia. injection Ha as <-. f_equal. lia.
Qed.
Lemma explicit_bad ns ids i : (forall v, v ∈ ns -> 0 <= v) -> i ∈ ids -> ~ 0 <= i < zlen ns ->
  (let* off := computeOffsetsFull (vec ns) in let* off := initialised off in let* s := buildExplicitArrByRanges (vec ids) (Some (vec off)) in initialised s) = Throw.
Proof.
  intros Hp Hi Hn. destruct (offsetsFull_ok (vec ns)) as (r & Er & Hps); [done|done|]. cbn [da_vals vec] in Hps. rewrite Er. cbn [bind]. rewrite initialised_ok. cbn [bind].
  rewrite (proj2 (explicit_throw (vec ids) (vec r) eq_refl eq_refl eq_refl eq_refl)); [done|]. exists i. split; [done|]. intros b (a & c & Ha & Hc & _). cbn [da_vals vec] in Ha, Hc. apply zlook_Some_lt in Ha. apply zlook_Some_lt in Hc. destruct Hps as [Hl _]. lia.
Qed.
Lemma nbGauss_ok g dpc ns : gd_dpc g = Some dpc -> zlen ns = zlen dpc -> (forall i v, ns @ i = Some v -> gsize g dpc i = Ok v) -> buildNbOfGaussPointPerCellField g = Ok (Some <$> ns).
Proof.
  intros E Hl H. unfold buildNbOfGaussPointPerCellField. rewrite E. pose proof (zlen_nonneg dpc). rewrite alloc1 by lia. cbn [bind]. rewrite <- Hl.
  match goal with |- ?X = Ok ?r => assert (W : wp X (fun s => s = r) False) end.
  { apply (wp_forZ (fun i r => r = (Some <$> take (Z.to_nat i) ns) ++ malloc Z (zlen ns - i))); [lia|by rewrite Z.sub_0_r| |].
    - intros i r Hi ->. destruct (zlook_lt ns i Hi) as [v Hv]. destruct (gtest _ _ _ _ (H i v Hv)) as (w & l & Hw & Hl' & Hb & ->). rewrite (rd_ok _ _ _ Hw). cbn [bind]. replace (w =? -1) with false by lia. cbn [ifthrow]. replace ((0 <=? w) && (w <? zlen (gd_loc g))) with true by lia. cbn [negb ifthrow].
      rewrite (rd_ok _ _ _ Hl'). cbn [bind]. rewrite wrc_fill by (rewrite ?zlen_take; lia). cbn [wp]. f_equal; [|f_equal; lia]. f_equal. rewrite zlook_to_nat in Hv by lia. replace (Z.to_nat (i + 1)) with (S (Z.to_nat i)) by lia. symmetry. by apply take_S_r.
    - intros r ->. rewrite Z.sub_diag, app_nil_r, firstn_all2; [done|unfold zlen; lia]. }
  apply wp_ok in W as (r & -> & ->). done.
Qed.
Lemma whole_nodes (c : cell) k : GetCellModel c.1 = Ok k -> cm_dyn k = false -> nodes_of c = c.2.
Proof.
  intros Ek Hd. assert (E : (c.1 =? CellTable.NORM_POLYHED) = false). { destruct (Z.eqb_spec c.1 CellTable.NORM_POLYHED) as [E|E]; [|done]. rewrite E in Ek. vm_compute in Ek. injection Ek as <-. done. }
  unfold nodes_of. induction c.2 as [|x l IH]; [done|]. cbn [List.filter]. rewrite IH. rewrite E. done.
Qed.
Lemma tupleIds_ok d m cells ns ids : stores m cells -> sizes d cells ns -> (d = GaussNE -> forall c, c ∈ cells -> whole c) -> (forall i, i ∈ ids -> 0 <= i < zlen cells) -> computeTupleIdsToSelectFromCellIds d m ids = Ok (blocks ns ids).
Proof.
  intros Hs Hz Hw Hr. pose proof (sizes_len _ _ _ Hz) as Hnl. assert (Hnn : forall v, v ∈ ns -> 0 <= v) by (intros v Hv; by eapply sizes_nonneg). rewrite <- Hnl in Hr. destruct d as [| |g|]; cbn [computeTupleIdsToSelectFromCellIds].
  - f_equal. cbn [sizes] in Hz. unfold blocks. assert (E : blk ns <$> ids = (fun i => [i]) <$> ids).
    { apply list_fmap_ext. intros j i Hi. apply elem_of_list_lookup_2 in Hi. specialize (Hr i Hi). unfold blk. rewrite Hz, <- fmap_take, ones_sum, zlen_take, zlook_fmap. rewrite Hnl in Hr. destruct (zlook_lt cells i Hr) as [c ->]. cbn [fmap option_fmap option_map]. change (default 0 (Some 1)) with 1. rewrite Z.min_l by lia. rewrite Z2Nat.id by lia. done. }
    rewrite E. clear. induction ids as [|x l IH]; [done|]. rewrite fmap_cons. cbn [concat app]. by rewrite <- IH.
  - done.
  - pose proof Hz as (dpc & E & Hl & _). destruct (proj2 (sizes_gauss g cells dpc ns E Hl) Hz) as [H1 H2]. rewrite (nbGauss_ok g dpc ns E H1 H2). cbn [bind]. rewrite initialised_ok. cbn [bind]. rewrite (numCells_ok m cells Hs). cbn [bind]. rewrite Hnl, Z.eqb_refl. cbn [negb ifthrow]. by apply explicit_blocks.
  - rewrite (nbNodes_ok m cells Hs). cbn [bind]. rewrite initialised_ok. cbn [bind]. assert (E : (fun c => zlen (nodes_of c)) <$> cells = ns); [|rewrite E; by apply explicit_blocks].
    cbn [sizes] in Hz. specialize (Hw eq_refl). clear -Hz Hw. induction Hz as [|c n l k (q & Ek & Hd & ->) Hz IH]; [done|]. rewrite fmap_cons. f_equal; [|apply IH; intros c' Hc'; apply Hw; by right]. rewrite (whole_nodes c q Ek Hd). apply (Hw c ltac:(left) q Ek Hd).
Qed.
Lemma tupleIds_bad d m cells ns ids i : stores m cells -> sizes d cells ns -> d <> P0 -> (d = GaussNE -> forall c, c ∈ cells -> whole c) -> i ∈ ids -> ~ 0 <= i < zlen cells -> computeTupleIdsToSelectFromCellIds d m ids = Throw.
Proof.
  intros Hs Hz H0 Hw Hi Hb. pose proof (sizes_len _ _ _ Hz) as Hnl. assert (Hnn : forall v, v ∈ ns -> 0 <= v) by (intros v Hv; by eapply sizes_nonneg). rewrite <- Hnl in Hb. destruct d as [| |g|]; cbn [computeTupleIdsToSelectFromCellIds]; try done.
  - pose proof Hz as (dpc & E & Hl & _). destruct (proj2 (sizes_gauss g cells dpc ns E Hl) Hz) as [H1 H2]. rewrite (nbGauss_ok g dpc ns E H1 H2). cbn [bind]. rewrite initialised_ok. cbn [bind]. rewrite (numCells_ok m cells Hs). cbn [bind]. rewrite Hnl, Z.eqb_refl. cbn [negb ifthrow]. by eapply explicit_bad.
  - rewrite (nbNodes_ok m cells Hs). cbn [bind]. rewrite initialised_ok. cbn [bind]. assert (E : (fun c => zlen (nodes_of c)) <$> cells = ns); [|rewrite E; by eapply explicit_bad].
    cbn [sizes] in Hz. specialize (Hw eq_refl). clear -Hz Hw. induction Hz as [|c n l k (q & Ek & Hd & ->) Hz IH]; [done|]. rewrite fmap_cons. f_equal; [|apply IH; intros c' Hc'; apply Hw; by right]. rewrite (whole_nodes c q Ek Hd). apply (Hw c ltac:(left) q Ek Hd).
Qed.

(** * Part of a field on cells *)
Definition pick (ns ids : list Z) : list Z := (fun i => default 0 (ns @ i)) <$> ids.
Lemma pick_at ns ids q i : (forall i, i ∈ ids -> 0 <= i < zlen ns) -> ids @ q = Some i -> pick ns ids @ q = ns @ i.
Proof. intros H Hq. unfold pick. rewrite zlook_fmap, Hq. cbn. destruct (zlook_lt ns i) as [v Hv]; [apply H; by eapply zlook_elem|]. by rewrite Hv. Qed.
Lemma pick_nonneg ns ids : (forall v, v ∈ ns -> 0 <= v) -> forall v, v ∈ pick ns ids -> 0 <= v.
Proof. intros H v Hv. unfold pick in Hv. apply elem_of_list_fmap in Hv as (i & -> & _). destruct (ns @ i) as [x|] eqn:E; cbn; [|lia]. apply H. by eapply zlook_elem. Qed.
Lemma blocks_len ns ids : (forall v, v ∈ ns -> 0 <= v) -> zlen (blocks ns ids) = zsum (pick ns ids).
Proof. intros H. unfold blocks. rewrite zlen_concat. f_equal. unfold pick. rewrite <- list_fmap_compose. apply list_fmap_ext. intros j i _. by apply zlen_blk. Qed.
Lemma blocks_range ns ids : (forall v, v ∈ ns -> 0 <= v) -> (forall i, i ∈ ids -> 0 <= i < zlen ns) -> forall v, v ∈ blocks ns ids -> 0 <= v < zsum ns.
Proof.
  intros Hp Hr v Hv. unfold blocks in Hv. apply elem_of_list_In, in_concat in Hv as (b & Hb & Hv). apply elem_of_list_In, elem_of_list_fmap in Hb as (i & -> & Hi). apply elem_of_list_In in Hv. unfold blk in Hv. apply elem_of_seqZ in Hv. specialize (Hr i Hi). destruct (zlook_lt ns i Hr) as [x Hx]. rewrite Hx in Hv. change (default 0 (Some x)) with x in Hv.
  pose proof (zsum_take_nonneg ns i Hp). pose proof (zsum_take_succ _ _ _ Hx) as E. assert (zsum (take (Z.to_nat (i + 1)) ns) <= zsum ns); [|lia].
  rewrite <- (take_drop (Z.to_nat (i + 1)) ns) at 2. rewrite zsum_app. assert (0 <= zsum (drop (Z.to_nat (i + 1)) ns)); [|lia]. apply zsum_nonneg. intros w Hw. apply Hp. apply elem_of_list_lookup in Hw as [k Hw]. rewrite lookup_drop in Hw. by eapply elem_of_list_lookup_2.
Qed.
Lemma picked_range (cells : list cell) ids sel : picked cells ids sel -> forall i, i ∈ ids -> 0 <= i < zlen cells.
Proof. intros H i Hi. apply elem_of_list_lookup in Hi as [k Hk]. destruct (Forall2_lookup_l _ _ _ _ _ H Hk) as (c & _ & E). by apply zlook_Some_lt in E. Qed.
Lemma clone_ok (g : gauss) dpc ids cut : gd_dpc g = Some dpc -> (forall i, i ∈ ids -> 0 <= i < zlen dpc) -> cut = mySelectByTupleIdSafe (vec dpc) ids ->
  (let* r := cut in let* r := allWritten r in Ok (GaussPt (GD (Some (da_vals r)) (gd_loc g)))) = Ok (GaussPt (GD (Some (pick dpc ids)) (gd_loc g))).
Proof.
  intros E Hr ->. pose proof (selectSafe_wp (vec dpc) ids eq_refl (da_wf_vec dpc)) as W. destruct (mySelectByTupleIdSafe (vec dpc) ids) as [r| | |]; cbn [wp] in W; try done.
  - destruct W as (_ & l & -> & Hl & Hat). cbn [bind]. unfold allWritten. cbn [da_vals da_alloc da_nc vec]. rewrite initialised_ok. cbn [bind da_vals]. do 4 f_equal. cbn [da_nc vec] in Hl, Hat. rewrite Z.mul_1_r in Hl. apply zlook_ext. intros q. destruct (decide (0 <= q < zlen ids)) as [Hq|Hq].
    + destruct (zlook_lt ids q Hq) as [i Hi]. rewrite (pick_at dpc ids q i Hr Hi). specialize (Hat q i Hi 0). unfold ij in Hat. cbn [da_nc da_vals da_alloc vec] in Hat. rewrite !Z.mul_1_r, !Z.add_0_r in Hat. assert (0 <= i < zlen dpc) by (apply Hr; by eapply zlook_elem). replace (0 <=? q) with true in Hat by lia. replace (0 <=? i) with true in Hat by lia. exact Hat.
    + rewrite (proj2 (zlook_None _ _)), (proj2 (zlook_None _ _)); [done|unfold pick; rewrite zlen_fmap; lia|lia].
  - exfalso. destruct W as (v & Hv & Hn). rewrite da_nt_vec in Hn. apply Hn. by apply Hr.
Qed.
Lemma part_core {A} (f : field A) cells ns ids sel m' selfun cut : carries f cells ns -> picked cells ids sel -> stores m' sel ->
  (forall a, Some a ∈ fd_arrs f -> selfun a = mySelectByTupleIdSafe a (blocks ns ids)) ->
  (forall g dpc, fd_disc f = GaussPt g -> gd_dpc g = Some dpc -> cut = (let* r := mySelectByTupleIdSafe (vec dpc) ids in let* r := allWritten r in Ok (GaussPt (GD (Some (da_vals r)) (gd_loc g))))) -> (fd_disc f = P0 \/ fd_disc f = GaussNE -> cut = Ok (fd_disc f)) ->
  exists d' arrs', cut = Ok d' /\ selectAll selfun (fd_arrs f) = Ok arrs' /\ carries (FD d' m' arrs') sel (pick ns ids) /\ same_kind (fd_disc f) d' /\
    forall q i, ids @ q = Some i -> same_cell f cells ns i (FD d' m' arrs') sel (pick ns ids) q.
Proof.
  intros (Hs & Hz & Ha) Hp Hs' Hsel Hcut Hcut'. pose proof (sizes_len _ _ _ Hz) as Hnl. pose proof (picked_range _ _ _ Hp) as Hr. pose proof (picked_len _ _ _ Hp) as Hsl. assert (Hnn : forall v, v ∈ ns -> 0 <= v) by (intros v Hv; by eapply sizes_nonneg).
  assert (Hrn : forall i, i ∈ ids -> 0 <= i < zlen ns) by (by rewrite Hnl).
  assert (Hpl : zlen (pick ns ids) = zlen ids) by (unfold pick; by rewrite zlen_fmap).
  destruct (selectAll_ok selfun (fd_arrs f) (blocks ns ids) (zsum ns) Ha) as (arrs' & Ea & Hm); [by apply blocks_range|done|].
  assert (K : exists d', cut = Ok d' /\ sizes d' sel (pick ns ids) /\ same_kind (fd_disc f) d' /\ forall q i, ids @ q = Some i -> locAt d' q = locAt (fd_disc f) i).
  { destruct (fd_disc f) as [| |g|] eqn:Ed; [|done| |].
    - exists P0. split; [apply Hcut'; by left|]. split; [|done]. cbn [sizes] in *. unfold pick. rewrite Hz. clear -Hp. induction Hp as [|i c ids sel Hc Hp IH]; [done|]. rewrite !fmap_cons, IH, zlook_fmap, Hc. done.
    - pose proof Hz as (dpc & E & Hl & _). destruct (proj2 (sizes_gauss g cells dpc ns E Hl) Hz) as [H1 H2]. set (g' := GD (Some (pick dpc ids)) (gd_loc g)). exists (GaussPt g'). assert (Hrd : forall i, i ∈ ids -> 0 <= i < zlen dpc) by (by rewrite Hl). split; [rewrite (Hcut g dpc eq_refl E); by apply clone_ok|]. split.
      + apply (sizes_gauss g' sel (pick dpc ids) (pick ns ids) eq_refl); [unfold pick; rewrite zlen_fmap; lia|]. split; [unfold pick; by rewrite !zlen_fmap|]. intros q v Hv. apply zlook_Some_lt in Hv as ?. destruct (zlook_lt ids q ltac:(lia)) as [i Hi]. rewrite (pick_at ns ids q i Hrn Hi) in Hv. specialize (H2 i v Hv). unfold gsize in *. cbn [gd_loc g']. rewrite (pick_at dpc ids q i Hrd Hi). done.
      + split; [done|]. intros q i Hi. cbn [locAt]. unfold loc_of. rewrite E. cbn [gd_dpc gd_loc g']. by rewrite (pick_at dpc ids q i Hrd Hi).
    - exists GaussNE. split; [apply Hcut'; by right|]. split; [|done]. apply F2_pair in Hz as [_ Hz]. cbn [sizes]. apply F2_pair. split; [lia|]. intros q c v Hc Hv. apply zlook_Some_lt in Hv as ?. destruct (zlook_lt ids q ltac:(lia)) as [i Hi]. rewrite (pick_at ns ids q i Hrn Hi) in Hv. rewrite (picked_look _ _ _ _ _ Hp Hi) in Hc. by eapply Hz. }
  destruct K as (d' & E1 & Hz' & Hk & Hlo). exists d', arrs'. split; [done|]. split; [done|]. split.
  { split; [done|]. split; [done|]. intros a Hin. rewrite <- blocks_len by done. by eapply taken_sized. }
  split; [done|]. intros q i Hi. assert (Hin : i ∈ ids) by (by eapply zlook_elem). split; [apply zlook_lt; by apply Hr|]. split; [by apply (picked_look _ _ _ _ _ Hp)|]. split; [by apply pick_at|]. split; [by apply Hlo|]. destruct (zlook_lt ns i (Hrn i Hin)) as [n Hn]. cbn [fd_arrs]. eapply values_taken; [exact Hm|exact Hn|]. intros k Hk'.
  apply (blocks_at (pick ns ids) ns ids q i n k Hnn ltac:(lia)); [|done| |done]. { intros x y Hx. symmetry. by apply pick_at. } by rewrite (pick_at ns ids q i Hrn Hi).
Qed.
Lemma partOf_ok m cells ids sel : stores m cells -> 0 <= um_dim m -> picked cells ids sel -> exists m', buildPartOfMySelf m ids = Ok m' /\ stores m' sel /\ typed m' sel /\ um_dim m' = um_dim m /\ um_coords m' = um_coords m.
Proof. intros Hs Hd Hp. unfold buildPartOfMySelf, getMeshDimension. replace (um_dim m <? -1) with false by lia. cbn [ifthrow bind]. replace (um_dim m =? -1) with false by lia. cbn [negb]. by apply (part_ok m cells). Qed.
Lemma partOf_throw m cells ids i : stores m cells -> 0 <= um_dim m -> i ∈ ids -> ~ 0 <= i < zlen cells -> buildPartOfMySelf m ids = Throw.
Proof. intros Hs Hd Hi Hn. unfold buildPartOfMySelf, getMeshDimension. replace (um_dim m <? -1) with false by lia. cbn [ifthrow bind]. replace (um_dim m =? -1) with false by lia. cbn [negb]. apply (part_throw m cells ids Hs). by exists i. Qed.
Lemma part_field {A} (f : field A) cells ns ids sel : carries f cells ns -> 0 <= um_dim (fd_mesh f) -> (fd_disc f = GaussNE -> forall c, c ∈ cells -> whole c) -> picked cells ids sel ->
  exists f' ns', buildSubPart f ids = Ok f' /\ carries f' sel ns' /\ typed (fd_mesh f') sel /\ same_kind (fd_disc f) (fd_disc f') /\ um_dim (fd_mesh f') = um_dim (fd_mesh f) /\ um_coords (fd_mesh f') = um_coords (fd_mesh f) /\
    forall q i, ids @ q = Some i -> same_cell f cells ns i f' sel ns' q.
Proof.
  intros Hf Hd Hw Hp. pose proof Hf as (Hs & Hz & Ha). pose proof (picked_range _ _ _ Hp) as Hr. destruct (partOf_ok _ _ _ _ Hs Hd Hp) as (m' & Em & Hs' & Ht' & Hd' & Hc').
  destruct (part_core f cells ns ids sel m' (fun a => mySelectByTupleIdSafe a (blocks ns ids)) (clonePart (fd_disc f) ids) Hf Hp Hs') as (d' & arrs' & E1 & E2 & H1 & H2 & H3).
  { done. } { intros g dpc -> E. cbn [clonePart]. by rewrite E. } { by intros [-> | ->]. }
  exists (FD d' m' arrs'), (pick ns ids). split; [|done]. unfold buildSubPart. assert (E : buildSubMeshData (fd_disc f) (fd_mesh f) ids = Ok (m', blocks ns ids)).
  { pose proof (tupleIds_ok _ _ _ _ ids Hs Hz Hw Hr) as Et. unfold buildSubMeshData. destruct (fd_disc f); [|done| |].
    - rewrite Em. cbn in Et |- *. injection Et as Et. by rewrite <- Et.
    - rewrite Et. cbn [bind]. by rewrite Em.
    - rewrite Et. cbn [bind]. by rewrite Em. }
  rewrite E. cbn [bind]. rewrite E1. cbn [bind]. rewrite E2. done.
Qed.
Lemma part_bad {A} (f : field A) cells ns ids i : carries f cells ns -> 0 <= um_dim (fd_mesh f) -> (fd_disc f = GaussNE -> forall c, c ∈ cells -> whole c) -> i ∈ ids -> ~ 0 <= i < zlen cells -> buildSubPart f ids = Throw.
Proof.
  intros (Hs & Hz & Ha) Hd Hw Hi Hn. unfold buildSubPart. assert (E : buildSubMeshData (fd_disc f) (fd_mesh f) ids = Throw); [|by rewrite E]. unfold buildSubMeshData. destruct (fd_disc f) as [| |g|] eqn:Ed; [|done| |].
  - by rewrite (partOf_throw _ _ _ _ Hs Hd Hi Hn).
  - by rewrite (tupleIds_bad _ _ _ _ _ _ Hs Hz ltac:(done) Hw Hi Hn).
  - by rewrite (tupleIds_bad _ _ _ _ _ _ Hs Hz ltac:(done) Hw Hi Hn).
Qed.
