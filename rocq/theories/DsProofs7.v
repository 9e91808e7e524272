(** What the sons are. *)
From Coq Require Import QArith ZifyBool ZifyNat.
From Verif Require Import CellModel Base ArrLib DataArray StdModel CellTable CellSpec CellProofs CellProofs2 CellProofs3 CellProofs5 UmModel UmSpec UmProofs UmProofs2 UcModel UcSpec UcProofs6 DsModel DsSpec DsProofs4 DsProofs5 DsProofs6.
Local Open Scope Z_scope.

Lemma sons_det g c fs fs' : sons g c fs -> sons g c fs' -> fs = fs'.
Proof.
  intros (k & Hk & Hn & Hf) (k' & Hk' & Hn' & Hf'). assert (k' = k) as -> by congruence. rewrite Hn in Hn'. injection Hn' as Hl. apply zlook_ext_lt; [done|]. intros i Hi. destruct (zlook_lt fs i Hi) as [x Hx]. destruct (zlook_lt fs' i ltac:(lia)) as [y Hy]. rewrite Hx, Hy. destruct (Hf i x Hx) as [E _]. destruct (Hf' i y Hy) as [E' _]. rewrite E in E'. by injection E' as <-.
Qed.
Lemma sons2D_ok nb c k fs : proper 2 nb c -> GetCellModel c.1 = Ok k -> sons MinusOneSonsGenerator c fs -> fs = (fun e => (if cm_quad k then NORM_SEG3 else NORM_SEG2, edge_nodes e)) <$> edges2D (cm_quad k) c.2.
Proof.
  intros (k' & Hk' & Hd & _ & Hl & _) Hk (k2 & Hk2 & Hn & Hf). assert (k' = k) as -> by congruence. assert (k2 = k) as -> by congruence. destruct (border_ok k c.2 (model_in _ _ Hk) Hd Hl) as [B1 B2]. cbn [g_nb g_fill MinusOneSonsGenerator] in *. injection Hn as Hn. rewrite B1 in Hn.
  apply zlook_ext_lt; [rewrite zlen_fmap; lia|]. intros i Hi. destruct (zlook_lt fs i Hi) as [x Hx]. destruct (zlook_lt (edges2D (cm_quad k) c.2) i ltac:(lia)) as [e He]. rewrite zlook_fmap, Hx, He. destruct (Hf i x Hx) as [E _]. rewrite (B2 i e He) in E. injection E as <-. done.
Qed.
Definition pointsb (c : cm) : bool := if cm_dyn c || negb (cm_dim c =? 1) then true else (cm_nbsons c =? cm_nbpts c) && bool_decide (cm_sons c = (fun i => (NORM_POINT1, [i])) <$> seqZ 0 (cm_nbpts c)).
Lemma models_points : forallb pointsb models = true. Proof. vm_compute. done. Qed.
Lemma sons1D_ok nb c fs : proper 1 nb c -> sons MinusOneSonsGenerator c fs -> fs = (fun n => (NORM_POINT1, [n])) <$> c.2.
Proof.
  destruct c as [t conn]. intros (k & Hk & Hd & Hpl & Hl & _) (k2 & Hk2 & Hn & Hf). cbn [fst snd] in *. assert (k2 = k) as -> by congruence. assert (Hdy : cm_dyn k = false). { destruct (cm_dyn k) eqn:E; [|done]. destruct (dyn_types t k Hk E) as [[-> H]|[[-> H]|[[-> H]|[-> H]]]]; try lia; done. }
  pose proof (CellProofs.forallb_elem _ _ _ models_points (model_in _ _ Hk)) as H. unfold pointsb in H. rewrite Hdy, Hd in H. cbn [orb negb Z.eqb Pos.eqb] in H. apply andb_true_iff in H as [H0 H1]. apply bool_decide_eq_true in H1. specialize (Hl Hdy).
  cbn [g_nb g_fill MinusOneSonsGenerator] in *. injection Hn as Hn. unfold getNumberOfSons2 in Hn. rewrite Hdy in Hn. cbn [negb] in Hn.
  apply zlook_ext_lt; [rewrite zlen_fmap; lia|]. intros i Hi. destruct (zlook_lt fs i Hi) as [x Hx]. destruct (zlook_lt conn i ltac:(lia)) as [n Hc]. rewrite zlook_fmap, Hx, Hc. destruct (Hf i x Hx) as [E _]. unfold fillSon2, getSonType2, fillSon in E. rewrite Hdy, H1 in E. cbn [negb] in E.
  assert (Hs : ((fun i => (NORM_POINT1, [i])) <$> seqZ 0 (cm_nbpts k)) @ i = Some (NORM_POINT1, [i])) by (rewrite zlook_fmap, zlook_seqZ by lia; cbn; by rewrite Z.add_0_l). rewrite (rd_ok _ _ _ Hs) in E. cbn [bind fst snd] in E. unfold reads in E. cbn [foldM] in E. rewrite (rd_ok _ _ _ Hc) in E. cbn in E. injection E as <-. done.
Qed.
Lemma sons3D_ok nb c k fs : proper 3 nb c -> GetCellModel c.1 = Ok k -> cm_dyn k = false -> sons MinusOneSonsGenerator c fs -> exists es, are_faces fs es /\ closed_surface es.
Proof.
  destruct c as [t conn]. intros (k' & Hk' & Hd & _ & Hl & Hc) Hk Hdy (k2 & Hk2 & Hn & Hf). cbn [fst snd] in *. assert (k' = k) as -> by congruence. assert (k2 = k) as -> by congruence. rewrite (static_not_polyhed t k Hk Hdy) in Hc. destruct Hc as (Hnd & _). destruct (faces_ok k conn (model_in _ _ Hk) Hdy Hd (Hl Hdy) Hnd) as (ss & es & S1 & S2 & S3 & S4 & _).
  cbn [g_nb g_fill MinusOneSonsGenerator] in *. injection Hn as Hn. assert (fs = ss) as ->; [|by exists es]. apply zlook_ext_lt; [exact (eq_trans (eq_sym Hn) (eq_sym S1))|]. intros i Hi. destruct (zlook_lt fs i Hi) as [x Hx]. destruct (zlook_lt ss i ltac:(rewrite S1, Hn; exact Hi)) as [y Hy]. destruct (Hf i x Hx) as [E _]. rewrite (S2 i y Hy) in E. injection E as <-. exact (eq_trans Hx (eq_sym Hy)).
Qed.
Lemma sons_polyhedron faces fs : faces <> [] -> (forall f, f ∈ faces -> -1 ∉ f) -> sons MinusOneSonsGenerator (NORM_POLYHED, polyhedron faces) fs -> fs = (fun f => (NORM_POLYGON, f)) <$> faces.
Proof.
  intros Hne Hs (k & Hk & Hn & Hf). vm_compute in Hk. injection Hk as <-. fold cm_POLYHED in *. destruct (polyhedron_ok faces Hne Hs cm_POLYHED eq_refl) as [P1 P2]. cbn [g_nb g_fill MinusOneSonsGenerator fst snd] in *. change (getNumberOfSons2 _ (polyhedron faces)) with (getNumberOfSons2 cm_POLYHED (polyhedron faces)) in Hn. rewrite P1 in Hn. injection Hn as Hn.
  apply zlook_ext_lt; [rewrite zlen_fmap; lia|]. intros i Hi. destruct (zlook_lt fs i Hi) as [x Hx]. destruct (zlook_lt faces i ltac:(lia)) as [f He]. rewrite zlook_fmap, Hx, He. destruct (Hf i x Hx) as [E _]. destruct (P2 i f He) as [E' _]. change (fillSon2 _ i (polyhedron faces)) with (fillSon2 cm_POLYHED i (polyhedron faces)) in E. rewrite E' in E. injection E as <-. done.
Qed.
Lemma edges_static nb c k gs es fs : proper 3 nb c -> GetCellModel c.1 = Ok k -> cm_dyn k = false -> c.1 <> NORM_HEXA27 -> sons MinusOneSonsGenerator c gs -> are_faces gs es -> sons MinusTwoSonsGenerator c fs ->
  exists l, fs = (fun e => (if cm_quad k then NORM_SEG3 else NORM_SEG2, edge_nodes e)) <$> l /\ NoDup l /\ (forall e, e ∈ l -> opp e ∉ l) /\ (forall e, e ∈ concat es <-> e ∈ l \/ opp e ∈ l).
Proof.
  destruct c as [t conn]. intros (k' & Hk' & Hd & _ & Hl & Hc) Hk Hdy H27 (k2 & Hk2 & Hn & Hf) Hfa (k3 & Hk3 & Hn3 & Hf3). cbn [fst snd] in *. assert (k' = k) as -> by congruence. assert (k2 = k) as -> by congruence. assert (k3 = k) as -> by congruence. rewrite (static_not_polyhed t k Hk Hdy) in Hc. destruct Hc as (Hnd & _).
  assert (Ht : cm_type k = t). { unfold GetCellModel in Hk. destruct (List.find _ models) as [c|] eqn:E; [|done]. apply find_some in E as [_ E]. injection Hk as <-. lia. }
  cbn [g_nb g_fill MinusOneSonsGenerator MinusTwoSonsGenerator] in *. injection Hn as Hn. rewrite Ht, (static_not_polyhed t k Hk Hdy) in Hn3. rewrite Ht, (static_not_polyhed t k Hk Hdy) in Hf3. cbn [negb] in Hf3.
  destruct (little_ok k conn gs es (model_in _ _ Hk) Hdy Hd ltac:(congruence) (Hl Hdy) Hnd (eq_sym Hn)) as (l & L1 & _ & L3 & L4 & L5 & L6); [intros i s Hs; by apply Hf|done|]. exists l. rewrite L1 in Hn3. injection Hn3 as Hn3. split; [|done].
  apply zlook_ext_lt; [rewrite zlen_fmap; lia|]. intros i Hi. destruct (zlook_lt fs i Hi) as [x Hx]. destruct (zlook_lt l i ltac:(lia)) as [e He]. rewrite zlook_fmap, Hx, He. destruct (Hf3 i x Hx) as [E _]. rewrite (L3 i e He) in E. injection E as <-. done.
Qed.
Lemma edges_polyhedron faces fs : faces <> [] -> (forall f, f ∈ faces -> -1 ∉ f) -> sons MinusTwoSonsGenerator (NORM_POLYHED, polyhedron faces) fs ->
  exists es, fs = (fun p : Z * Z => (NORM_SEG2, [p.1; p.2])) <$> es /\ distinct_pairs es /\ forall p, (exists q, q ∈ es /\ same_pair p q) <-> exists f e, f ∈ faces /\ e ∈ ring f /\ same_pair p e.1.
Proof.
  intros Hne Hs (k & Hk & Hn & Hf). assert (k = cm_POLYHED) as -> by (vm_compute in Hk; injection Hk as <-; done). destruct (polyhedron_edges faces Hne Hs) as (es & E1 & E2 & E3 & E4). cbn [g_nb g_fill MinusTwoSonsGenerator fst snd] in *. change (cm_type cm_POLYHED =? NORM_POLYHED) with true in *. cbn [negb] in Hf. rewrite E1 in Hn. cbn [bind] in Hn. rewrite zlen_pairs in Hn. injection Hn as Hn. rewrite Z.mul_comm, Z.div_mul in Hn by lia.
  exists es. split; [|done]. apply zlook_ext_lt; [rewrite zlen_fmap; lia|]. intros i Hi. destruct (zlook_lt fs i Hi) as [x Hx]. destruct (zlook_lt es i ltac:(lia)) as [p Hp]. rewrite zlook_fmap, Hx, Hp. destruct (Hf i x Hx) as [E _]. rewrite E1 in E. cbn [bind] in E. destruct (pairs_at es i p Hp) as [P1 P2]. rewrite (rd_ok _ _ _ P1) in E. cbn [bind] in E. rewrite (rd_ok _ _ _ P2) in E. cbn [bind] in E. injection E as <-. done.
Qed.
Lemma micro_static nb c k gs fs : proper 2 nb c -> GetCellModel c.1 = Ok k -> cm_dyn k = false -> sons MinusOneSonsGenerator c gs -> sons MicroEdgesGenerator2D c fs ->
  fs = if cm_quad k then concat (halves <$> gs) else gs.
Proof.
  destruct c as [t conn]. intros (k' & Hk' & Hd & _ & Hl & Hc) Hk Hdy (k2 & Hk2 & Hn & Hf) (k3 & Hk3 & Hn3 & Hf3). cbn [fst snd] in *. assert (k' = k) as -> by congruence. assert (k2 = k) as -> by congruence. assert (k3 = k) as -> by congruence. cbn [g_nb g_fill MinusOneSonsGenerator MicroEdgesGenerator2D] in *. pose proof (model_in _ _ Hk) as Hm.
  injection Hn as Hn. unfold getNumberOfSons2 in Hn. unfold getNumberOfMicroEdges in Hn3. rewrite Hdy in Hn, Hn3. rewrite Hd in Hn3. cbn [negb Z.eqb Pos.eqb] in Hn, Hn3. injection Hn3 as Hn3.
  assert (M : forall i f, gs @ i = Some f -> if cm_quad k then exists a b m, f.2 = [a; b; m] /\ fillMicroEdge k (2 * i) conn = Ok (NORM_SEG2, [a; m]) /\ fillMicroEdge k (2 * i + 1) conn = Ok (NORM_SEG2, [m; b]) else fillMicroEdge k i conn = Ok f).
  { intros i [t' l] Hfi. apply (micro_ok k conn i t' l Hm Hdy). left. split; [done|]. by apply Hf. }
  destruct (cm_quad k) eqn:Hq.
  - assert (Hh : forall f, f ∈ gs -> zlen (halves f) = 2). { intros f Hfg. apply elem_of_zlook in Hfg as [i Hfg]. destruct (M i f Hfg) as (a & b & m & E & _). unfold halves. by rewrite E. }
    apply zlook_ext_lt; [rewrite halves_len by done; lia|]. intros i Hi. destruct (zlook_lt fs i Hi) as [x Hx]. destruct (zlook_lt (concat (halves <$> gs)) i) as [y Hy]; [rewrite halves_len by done; lia|]. rewrite Hx, Hy. destruct (Hf3 i x Hx) as [E _]. destruct (halves_at gs i y Hh Hy) as (g & Hg & Hz). destruct (M _ g Hg) as (a & b & m & Eg & E1 & E2). unfold halves in Hz. rewrite Eg in Hz.
    pose proof (Z.div_mod i 2 ltac:(lia)) as Hdm. pose proof (Z.mod_pos_bound i 2 ltac:(lia)). assert (i mod 2 = 0 \/ i mod 2 = 1) as [E0|E0] by lia; rewrite E0 in Hz, Hdm.
    + injection Hz as <-. replace (2 * (i / 2)) with i in E1 by lia. congruence.
    + injection Hz as <-. replace (2 * (i / 2) + 1) with i in E2 by lia. congruence.
  - apply zlook_ext_lt; [lia|]. intros i Hi. destruct (zlook_lt fs i Hi) as [x Hx]. destruct (zlook_lt gs i ltac:(lia)) as [y Hy]. rewrite Hx, Hy. destruct (Hf3 i x Hx) as [E _]. rewrite (M i y Hy) in E. injection E as <-. done.
Qed.

Definition curve : list cell := [(NORM_SEG3, [0; 1; 3]); (NORM_SEG3, [1; 2; 4])].
Lemma curve_proper : Forall (proper 1 5) curve.
Proof. repeat apply Forall_cons_2; [| |constructor]; (eexists; split; [reflexivity|]; split; [done|]; split; [done|]; split; [done|]; cbn; split; [repeat constructor; cbn; rewrite ?elem_of_cons, ?elem_of_nil; lia|]; split; [small|]; split; [intros E|intros E]; try done). Qed.
Lemma curve_refuted : exists m, stores m curve /\ has_nodes m 5 /\ um_dim m = 1 /\ Forall (proper 1 5) curve /\ findBoundaryNodes m = Ok [0; 2; 3; 4].
Proof. exists (mk 1 5 curve). destruct (mk_ok 1 5 curve ltac:(lia)) as (H1 & _ & H2). split; [done|]. split; [done|]. split; [done|]. split; [apply curve_proper|]. vm_compute. done. Qed.
