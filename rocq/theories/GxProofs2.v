(** Proofs: types met along a mesh, nodes of a cell. *)
From Coq Require Import QArith ZifyBool ZifyNat.
From Verif Require Import Base DataArray IndexSpec CellTable CellModel UmModel UmSpec UmProofs UmProofs2 UmProofs3 TyModel DgModel SxProofs SxProofs3 GxModel GxSpec GxProofs.
Local Open Scope Z_scope.

Lemma runs_one t : runs [t] [t].
Proof. split; [exists [1%nat]; split; [done|]; split; [by repeat constructor|done]|]. intros i a b Ha Hb. pose proof (zlook_Some_lt _ _ _ Ha). pose proof (zlook_Some_lt _ _ _ Hb). change (zlen [t]) with 1 in *. lia. Qed.
Lemma zip_snoc (cs : list nat) (r : list Z) n t : length cs = length r -> concat (zip_with replicate (cs ++ [n]) (r ++ [t])) = concat (zip_with replicate cs r) ++ replicate n t.
Proof. intros H. rewrite zip_with_app by done. rewrite concat_app. cbn. by rewrite app_nil_r. Qed.
Lemma runs_same l r t : runs l (r ++ [t]) -> runs (l ++ [t]) (r ++ [t]).
Proof.
  intros [(cs & H1 & H2 & H3) H4]. split; [|done]. rewrite app_length in H1. cbn in H1. destruct cs as [|n cs' _] using rev_ind; [cbn in H1; lia|]. rewrite app_length in H1. cbn in H1.
  apply Forall_app in H2 as [H2 Hn]. exists (cs' ++ [S n]). split; [rewrite !app_length; cbn; lia|]. split; [apply Forall_app; split; [done|]; constructor; [lia|constructor]|].
  rewrite H3, !zip_snoc by lia. rewrite <- app_assoc. f_equal. by rewrite replicate_S_end.
Qed.
Lemma runs_other l r u t : runs l (r ++ [u]) -> u <> t -> runs (l ++ [t]) ((r ++ [u]) ++ [t]).
Proof.
  intros [(cs & H1 & H2 & H3) H4] Hne. split.
  - exists (cs ++ [1%nat]). split; [rewrite !app_length in *; cbn in *; lia|]. split; [apply Forall_app; split; [done|]; by repeat constructor|]. by rewrite zip_snoc, H3.
  - intros i a b Ha Hb. pose proof (zlook_Some_lt _ _ _ Ha) as La. pose proof (zlook_Some_lt _ _ _ Hb) as Lb. rewrite zlen_app in Lb. change (zlen [t]) with 1 in Lb. destruct (decide (i + 1 < zlen (r ++ [u]))) as [Hi|Hi].
    + rewrite zlook_app_l in Ha, Hb by lia. by eapply H4.
    + rewrite zlen_app in Hi, Lb. change (zlen [u]) with 1 in *. assert (i = zlen r) as -> by lia. rewrite zlook_app_l in Ha by (rewrite zlen_app; change (zlen [u]) with 1; lia). rewrite zlook_app_r in Ha by lia. rewrite zlook_app_r in Hb by (rewrite zlen_app; change (zlen [u]) with 1; lia). rewrite zlen_app in Hb. change (zlen [u]) with 1 in Hb. rewrite Z.sub_diag in Ha. rewrite Z.sub_diag in Hb. by injection Ha as <-; injection Hb as <-.
Qed.
Lemma sorted_ok m cells : stores m cells -> exists r, getAllGeoTypesSorted m = Ok r /\ runs (fst <$> cells) r.
Proof.
  intros Hs. destruct (stores_get m cells Hs) as (conn & connI & Ec & EI & Hsky & _). unfold getAllGeoTypesSorted, checkConnectivityFullyDefined. rewrite Ec, EI, (numCells_ok m cells Hs). cbn [bind]. destruct cells as [|c0 rest].
  - exists []. split; [done|]. split; [exists []; done|]. intros i a b Ha. apply zlook_Some_lt in Ha. change (zlen (@nil Z)) with 0 in Ha. lia.
  - pose proof (zlen_nonneg rest). assert (zlen (c0 :: rest) =? 0 = false) as -> by (rewrite zlen_cons; lia).
    destruct (read_cell _ conn connI Hsky 0 c0 eq_refl) as (a & E1 & _ & E2 & _ & _ & _ & Ha & Hb). pose proof (zlen_nonneg c0.2). replace (zlen conn <? 1) with false by lia. cbn [ifthrow]. unfold typeAt at 1. rewrite E1. cbn [bind]. rewrite E2. cbn [bind].
    match goal with |- context [forZ 1 ?n ?b ?s] => assert (forall post pre r u, c0 :: rest = pre ++ post -> runs (fst <$> pre) (r ++ [u]) -> exists r', forZ (zlen pre) n b (r ++ [u]) = Ok r' /\ runs (fst <$> (c0 :: rest)) r') as W end.
    { induction post as [|c post IH]; intros pre r u E Hr.
      - rewrite app_nil_r in E. rewrite <- E in *. rewrite forZ_empty by lia. eauto.
      - pose proof (zlen_nonneg post). rewrite forZ_step by (rewrite E, zlen_app, zlen_cons; lia). rewrite zlen_app. change (zlen [u]) with 1. replace (zlen r + 1 - 1) with (zlen r) by lia. rewrite (rd_ok _ _ u) by (apply mid_at). cbn [bind].
        destruct (read_cell _ conn connI Hsky (zlen pre) c) as (a' & F1 & _ & F2 & _); [rewrite E; apply mid_at|]. unfold typeAt at 1. rewrite F1. cbn [bind]. rewrite F2. cbn [bind].
        assert (zlen pre + 1 = zlen (pre ++ [c])) as -> by (rewrite zlen_app; done). destruct (Z.eqb_spec u c.1) as [->|Hne]; cbn [negb bind].
        + apply IH; [by rewrite <- app_assoc|]. rewrite fmap_app. by apply runs_same.
        + apply IH; [by rewrite <- app_assoc|]. rewrite fmap_app. by apply runs_other. }
    apply (W rest [c0] [] c0.1); [done|]. apply runs_one.
Qed.
Lemma part_types m cells ids : um_coords m <> None -> stores m cells -> (forall i, i ∈ ids -> 0 <= i < zlen cells) ->
  exists ts, getTypesOfPart m ids = Ok ts /\ ascending ts /\ forall t, t ∈ ts <-> exists i c, i ∈ ids /\ cells @ i = Some c /\ c.1 = t.
Proof.
  intros Hco Hs Hi. destruct (stores_get m cells Hs) as (conn & connI & Ec & EI & Hsky & _). unfold getTypesOfPart, checkFullyDefined. rewrite Ec, EI. destruct (um_coords m) as [co|]; [|done].
  match goal with |- context [foldM ?g _ _] => assert (forall l acc, (forall i, i ∈ l -> 0 <= i < zlen cells) -> ascending acc -> exists ts, foldM g l acc = Ok ts /\ ascending ts /\ forall t, t ∈ ts <-> t ∈ acc \/ exists i c, i ∈ l /\ cells @ i = Some c /\ c.1 = t) as W end.
  { induction l as [|i l IH]; intros acc Hl Ha.
    - exists acc. split; [done|]. split; [done|]. intros t. split; [by left|]. intros [H|(i & c & H & _)]; [done|by apply elem_of_nil in H].
    - cbn [foldM]. destruct (zlook_lt cells i (Hl i ltac:(left))) as [c Hc]. destruct (read_cell cells conn connI Hsky i c Hc) as (a & E1 & _ & E2 & _). unfold typeAt at 1. rewrite E1. cbn [bind]. rewrite E2. cbn [bind].
      destruct (IH (insertType c.1 acc)) as (ts & -> & Hasc & Hts); [intros; apply Hl; by right|by apply insertType_asc|]. exists ts. split; [done|]. split; [done|]. intros t. rewrite Hts, insertType_elem. split.
      + intros [[->|H]|(j & d & Hj & Hd & <-)]; [right; exists i, c; split; [left|done]|by left|right; exists j, d; split; [by right|done]].
      + intros [H|(j & d & Hj & Hd & <-)]; [by left; right|]. apply elem_of_cons in Hj as [->|Hj]; [left; left; congruence|right; eauto]. }
  destruct (W ids [] Hi) as (ts & E & Ha & Ht); [done|]. exists ts. split; [done|]. split; [done|]. intros t. rewrite Ht, elem_of_nil. tauto.
Qed.
Lemma nofilter (l : list Z) : -1 ∉ l -> List.filter (fun v => negb (v =? -1)) l = l.
Proof. induction l as [|x l IH]; intros H; [done|]. apply not_elem_of_cons in H as [H1 H2]. cbn. replace (x =? -1) with false by lia. cbn. by rewrite IH. Qed.
Lemma nodes_of_cell m cells i c : stores m cells -> cells @ i = Some c -> (c.1 <> NORM_POLYHED -> -1 ∉ c.2) -> getNumberOfNodesInCell m i = Ok (zlen (List.filter (fun v => negb (v =? -1)) c.2)).
Proof.
  intros Hs Hc Hsep. destruct (stores_get m cells Hs) as (conn & connI & Ec & EI & Hsky & _). unfold getNumberOfNodesInCell, unchecked. rewrite Ec, EI. destruct (read_cell cells conn connI Hsky i c Hc) as (a & E1 & E2 & E3 & E4 & _). rewrite E1. cbn [bind]. rewrite E3. cbn [bind]. rewrite E2. cbn [bind].
  destruct (Z.eqb_spec c.1 NORM_POLYHED) as [E|E]; cbn [negb].
  - replace (a + 1 + zlen c.2 - (a + 1)) with (zlen c.2) by lia. rewrite E4 by (pose proof (zlen_nonneg c.2); lia). cbn [bind]. by rewrite take_ge by (unfold zlen; lia).
  - rewrite nofilter by auto. f_equal. lia.
Qed.
