From Verif Require Import Base DataArray ArrLib SearchSpec StdProofs StrModel StrSpec StrProofs StrProofs2 StrProofs4 ConnProofs ConnProofs2 ConnProofs5 AmrModel AmrSpec AmrProofs AmrProofs2 AmrProofs3 AmrProofs4 AmrProofs5 AmrProofs6.
From Coq Require Import ZifyBool ZifyNat.

Lemma spreadRow0 {A} nc (inp : list A) kk d f s : 0 <= d -> spreadRow nc inp 0 kk d f s = forZ 0 d (fun i s => forZ 0 f (fun _ s => put nc inp (kk + 1 + i) s) s) s.
Proof.
  intros Hd. unfold spreadRow. rewrite forZ_empty by lia. cbn [bind].
  rewrite (forZ_carry d _ (fun i s => forZ 0 f (fun _ s => put nc inp (kk + 1 + i) s) s) _ 1); [|done|].
  - destruct (forZ 0 d _ s) as [u| | |]; [|done..]. cbn [bind]. by rewrite forZ_empty by lia.
  - intros i u _. cbn [bind]. rewrite Z.mul_1_r. apply bind_ext. intros v. do 2 f_equal. lia.
Qed.
Lemma plane0 {A} nc (inp : list A) base s0 a0 a1 b1 d0 f0 d1 f1 s : 0 <= d0 -> 0 < f0 -> 0 <= d1 -> 0 < f1 ->
  foldM (FS nc inp) (planeS false 0 base s0 a0 a1 b1 d0 f0 d1 f1) s
  = forZ 0 d1 (fun j s => forZ 0 f1 (fun _ s => forZ 0 d0 (fun i s => forZ 0 f0 (fun _ s => put nc inp (base + a0 + s0 * (a1 + j) + i) s) s) s) s) s.
Proof.
  intros. rewrite <- planeS_ok by lia. unfold SpreadGhost2D. rewrite forZ_empty by lia. cbn [bind].
  rewrite (forZ_ext' 0 d1 _ (fun j s => forZ 0 f1 (fun _ s => forZ 0 d0 (fun i s => forZ 0 f0 (fun _ s => put nc inp (base + a0 + s0 * (a1 + j) + i) s) s) s) s)).
  - destruct (forZ 0 d1 _ s) as [u| | |]; [|done..]. cbn [bind]. by rewrite forZ_empty by lia.
  - intros j t _. apply forZ_ext'. intros y u _. rewrite spreadRow0 by lia. apply forZ_ext'. intros i v _. apply forZ_ext'. intros x w _. f_equal. lia.
Qed.
Lemma plain_spread_prog {A} st part facts (fine coarse : da A) : fits 0 st part facts fine coarse -> grid_nb facts < 2147483648 -> nonempty_box part -> last_equal facts ->
  SpreadCoarseToFine (Some coarse) st (Some fine) part facts = result2 (da_nc fine) (foldM (FS (da_nc fine) (da_vals coarse)) (gets false 0 st part facts) (da_vals fine, 0)).
Proof.
  intros Hf Hb Hne Hlast. pose proof (fits_okp _ _ _ _ _ _ Hf) as Hk. pose proof (okp_len _ _ _ Hk) as [L1 L2]. unfold SpreadCoarseToFine. rewrite <- L1, <- L2, Z.eqb_refl. cbn [negb orb ifthrow].
  destruct (fits_alloc _ _ _ _ _ _ Hf) as [Al1 Al2]. rewrite Al1, Al2. cbn [negb orb ifthrow].
  rewrite nbStruct_ok by (first [apply dim_ok_ne; by destruct Hf|by eapply okp_nonneg]). cbn [bind]. rewrite (nbRange_ok _ _ _ Hk). cbn [bind].
  pose proof (fits_nc _ _ _ _ _ _ Hf) as Hnc. pose proof (fits_coarse _ _ _ _ _ _ Hf) as Hc. pose proof (fits_fine _ _ _ _ _ _ Hf) as Hfi. rewrite ghosted0 in Hc, Hfi. rewrite Hc, <- Hnc, !Z.eqb_refl. cbn [negb ifthrow].
  assert (0 < grid_nb (box_dims part)) as Hpos. { apply grid_nb_pos. clear -Hne. induction Hne; constructor; [lia|done]. }
  replace (grid_nb (box_dims part) =? 0) with false by lia. cbn [ubif]. rewrite (fine_nb _ _ _ Hk) in Hfi. rewrite Hfi, Z.rem_mul by lia. cbn [Z.eqb negb ifthrow].
  rewrite acc_mul by (first [by eapply okp_facts|lia]). rewrite Z.mul_1_l, Z.eqb_refl. cbn [negb ifthrow]. rewrite getDims_ok by (by eapply okp_dims). cbn [bind].
  destruct (wp_length3 st) as [(s0 & ->)|[(s0 & s1 & ->)|(s0 & s1 & s2 & ->)]]; [by destruct Hf| | |].
  - inversion Hk as [|? ? a0 b0 ? f0 ? Ha0 Hb0 Hn0 Hf0 Hk0]; subst. inversion Hk0; subst. change (box_dims [(a0, b0)]) with [b0 - a0].
    rewrite <- gets1 by lia. unfold result2. rewrite <- rowS_ok by lia. rewrite spreadRow0 by lia. rewrite bind_assoc.
    match goal with |- bind ?a _ = bind ?b _ => replace a with b end.
    + match goal with |- bind ?b _ = _ => destruct b as [[? ?]| | |] end; done.
    + apply forZ_ext'. intros i t _. apply forZ_ext'. intros x u _. f_equal. lia.
  - inversion Hk as [|? ? a0 b0 ? f0 ? Ha0 Hb0 Hn0 Hf0 Hk0]; subst. inversion Hk0 as [|? ? a1 b1 ? f1 ? Ha1 Hb1 Hn1 Hf1 Hk1]; subst. inversion Hk1; subst. change (box_dims [(a0, b0); (a1, b1)]) with [b0 - a0; b1 - a1].
    rewrite <- gets2 by lia. unfold result2. rewrite plane0 by lia. rewrite bind_assoc.
    rewrite (forZ_carry (b1 - a1) _ (fun j s => forZ 0 f1 (fun _ s => forZ 0 (b0 - a0) (fun i s => forZ 0 f0 (fun _ s => put (da_nc fine) (da_vals coarse) (0 + a0 + s0 * (a1 + j) + i) s) s) s) s) _ s0); [|lia|].
    + rewrite bind_assoc. apply bind_ext. intros [out op]. done.
    + intros j t _. cbn [bind]. strip. apply forZ_ext'. intros y t1 _. apply forZ_ext'. intros i t2 _. apply forZ_ext'. intros x t3 _. f_equal. lia.
  - inversion Hk as [|? ? a0 b0 ? f0 ? Ha0 Hb0 Hn0 Hf0 Hk0]; subst. inversion Hk0 as [|? ? a1 b1 ? f1 ? Ha1 Hb1 Hn1 Hf1 Hk1]; subst. inversion Hk1 as [|? ? a2 b2 ? f2 ? Ha2 Hb2 Hn2 Hf2 Hk2]; subst. inversion Hk2; subst.
    change (box_dims [(a0, b0); (a1, b1); (a2, b2)]) with [b0 - a0; b1 - a1; b2 - a2]. cbn [last_equal] in Hlast. subst f2.
    rewrite <- gets3 by lia. unfold volS, result2. rewrite axis by lia. rewrite !foldM_app'. change (seqZ 0 0 ≫= _) with (@nil (option Z)) at 1. change (foldM ?f [] ?s) with (Ok s). cbn [bind]. rewrite foldM_app', foldM_loop.
    rewrite !bind_assoc.
    rewrite (forZ_carry (b2 - a2) _ (fun k s => forZ 0 f1 (fun _ s => forZ 0 (b1 - a1) (fun j s => forZ 0 f1 (fun _ s => forZ 0 (b0 - a0) (fun i s => forZ 0 f0 (fun _ s =>
      put (da_nc fine) (da_vals coarse) (a0 + s0 * a1 + s0 * s1 * a2 + k * (s0 * s1) + i + j * s0) s) s) s) s) s) s) _ (s0 * s1)); [|lia|].
    + rewrite bind_assoc. match goal with |- bind ?a _ = bind ?b _ => replace a with b end.
      * apply bind_ext. intros [out op]. done.
      * apply forZ_ext'. intros k t _. rewrite foldM_loop. apply forZ_ext'. intros z t1 _. rewrite plane0 by lia. apply forZ_ext'. intros j t2 _. apply forZ_ext'. intros y t3 _. apply forZ_ext'. intros i t4 _. apply forZ_ext'. intros x t5 _. f_equal. lia.
    + intros k t _. cbn [bind]. strip. done.
Qed.

(** What the gathering computes. *)
Lemma gather {A} nc (inp : list A) l out : 0 <= nc -> zlen l * nc <= zlen out -> (forall i loc, l @ i = Some (Some loc) -> 0 <= loc /\ (loc + 1) * nc <= zlen inp) ->
  exists out', foldM (FS nc inp) l (out, 0) = Ok (out', zlen l) /\ zlen out' = zlen out /\
    forall i c, 0 <= i -> 0 <= c < nc -> out' @ (i * nc + c) = match l @ i with Some (Some loc) => inp @ (loc * nc + c) | _ => out @ (i * nc + c) end.
Proof.
  intros Hnc Ho Hl.
  assert (exists s, foldM (FS nc inp) l (out, 0) = Ok s /\ s.2 = zlen l /\ zlen s.1 = zlen out /\
    forall i c, 0 <= i -> 0 <= c < nc -> s.1 @ (i * nc + c) = match l @ i with Some (Some loc) => inp @ (loc * nc + c) | _ => out @ (i * nc + c) end) as ([o p] & H1 & H2 & H3); [|simpl in *; subst p; by exists o].
  apply wp_ok.
  apply (wp_foldM _ (fun pre s => s.2 = zlen pre /\ zlen s.1 = zlen out /\ forall i c, 0 <= i -> 0 <= c < nc -> s.1 @ (i * nc + c) = match pre @ i with Some (Some loc) => inp @ (loc * nc + c) | _ => out @ (i * nc + c) end)).
  - split; [done|]. split; [done|]. intros i c Hi Hc. rewrite zlook_nil. done.
  - intros pre o post [out1 ip] He (Hip & Hlen & Hv). simpl in Hip, Hlen, Hv. subst ip.
    assert (l @ zlen pre = Some o) as Hlook. { rewrite He. rewrite zlook_app_r by lia. rewrite Z.sub_diag. done. }
    pose proof (zlook_Some_lt _ _ _ Hlook) as Hlt.
    destruct o as [loc|]; cbn [FS].
    + destruct (Hl _ _ Hlook) as [Hl1 Hl2]. unfold put. destruct (cpT_ok nc inp loc out1 (zlen pre)) as (out2 & -> & Hl3 & H2); [lia|lia|done|lia|nia|]. cbn [bind wp]. simpl fst. simpl snd. split; [rewrite zlen_app; done|]. split; [lia|].
      intros i c Hi Hc. rewrite H2. destruct (decide (i = zlen pre)) as [->|Hne].
      * replace ((zlen pre * nc <=? zlen pre * nc + c) && (zlen pre * nc + c <? (zlen pre + 1) * nc)) with true by lia. rewrite zlook_app_r by lia. rewrite Z.sub_diag. cbn. f_equal. lia.
      * replace ((zlen pre * nc <=? i * nc + c) && (i * nc + c <? (zlen pre + 1) * nc)) with false by nia. rewrite Hv by done. destruct (decide (i < zlen pre)); [by rewrite zlook_app_l by lia|].
        rewrite (zlook_ge pre) by lia. rewrite (zlook_ge (pre ++ [Some loc])) by (rewrite zlen_app; change (zlen [Some loc]) with 1; lia). done.
    + cbn [wp skip]. simpl fst. simpl snd. split; [rewrite zlen_app; done|]. split; [done|]. intros i c Hi Hc. rewrite Hv by done. destruct (decide (i < zlen pre)); [by rewrite zlook_app_l by lia|].
      rewrite (zlook_ge pre) by lia. destruct (decide (i = zlen pre)) as [->|Hne]; [rewrite zlook_app_r by lia; rewrite Z.sub_diag; done|].
      rewrite (zlook_ge (pre ++ [None])) by (rewrite zlen_app; change (zlen [@None Z]) with 1; lia). done.
  - intros s H. exact H.
Qed.
(** The sources. *)
Lemma srcid_source g st part facts cell x : 0 <= g -> okp st part facts -> in_ghosted g (fine_st part facts) x -> source_of part facts cell x ->
  srcid g st part facts (moved g x) = tuple_of g st cell /\ in_grid (ghosted g st) (moved g cell).
Proof.
  intros Hg H. unfold in_ghosted. revert cell x. induction H as [|n st a b part f facts Ha Hab Hb Hf H IH]; intros cell x Hx Hs.
  - destruct cell; [|done]. destruct x; [|done]. split; [done|]. constructor.
  - destruct cell as [|c cell]; [done|]. destruct x as [|x xs]; [done|]. cbn [source_of] in Hs. destruct Hs as [Hs Hss]. rewrite fine_cons, ghosted_cons, moved_cons in Hx. inversion Hx as [|? ? ? ? Hx1 Hx2]; subst.
    destruct (IH cell xs Hx2 Hss) as [E1 E2]. rewrite !moved_cons, ghosted_cons. cbn [srcid]. rewrite tuple_cons, E1. unfold axs.
    destruct Hs as [[Hs1 ->]|[[Hs1 ->]|[Hs1 Hs2]]].
    + replace (x + g <? g) with true by lia. split; [lia|]. constructor; [lia|done].
    + replace (x + g <? g) with false by nia. replace (x + g <? g + (b - a) * f) with false by lia. split; [lia|]. constructor; [lia|done].
    + replace (x + g <? g) with false by lia. replace (x + g <? g + (b - a) * f) with true by lia. replace (x + g - g) with x by lia. destruct (div_child f x (c - a) Hf Hs2) as [E _]. rewrite E. split; [lia|]. constructor; [nia|done].
Qed.
Lemma source_exists g st part facts q : 0 <= g -> okp st part facts -> in_grid (ghosted g (fine_st part facts)) q -> exists x cell, q = moved g x /\ source_of part facts cell x.
Proof.
  intros Hg H. revert q. induction H as [|n st a b part f facts Ha Hab Hb Hf H IH]; intros q Hq.
  - inversion Hq; subst. exists [], []. done.
  - rewrite fine_cons, ghosted_cons in Hq. inversion Hq as [|? t ? q' Hq1 Hq2]; subst. destruct (IH q' Hq2) as (x & cell & -> & Hs).
    destruct (decide (t < g)); [|destruct (decide (t < g + (b - a) * f))].
    + exists (t - g :: x), (a - 1 :: cell). rewrite moved_cons. split; [f_equal; lia|]. split; [left; lia|done].
    + exists (t - g :: x), (a + (t - g) / f :: cell). rewrite moved_cons. split; [f_equal; lia|]. split; [|done]. right. right. split; [lia|]. pose proof (Z.div_mod (t - g) f). pose proof (Z.mod_pos_bound (t - g) f). nia.
    + exists (t - g :: x), (b :: cell). rewrite moved_cons. split; [f_equal; lia|]. split; [right; left; lia|done].
Qed.
Lemma inner_in g st part facts x : 0 <= g -> okp st part facts -> in_ghosted g (fine_st part facts) x -> inner g part facts (moved g x) = true <-> in_grid (fine_st part facts) x.
Proof.
  intros Hg H. unfold in_ghosted. revert x. induction H as [|n st a b part f facts Ha Hab Hb Hf H IH]; intros x Hx.
  - destruct x; [|inversion Hx]. split; [constructor|done].
  - destruct x as [|x xs]; [inversion Hx|]. rewrite fine_cons, ghosted_cons, moved_cons in Hx. inversion Hx as [|? ? ? ? Hx1 Hx2]; subst. rewrite moved_cons, fine_cons. cbn [inner]. rewrite andb_true_iff. unfold in_grid in *. rewrite Forall2_cons, IH by done.
    split; intros [H1 H2]; split; try done; lia.
Qed.
Lemma gets_at zone g st part facts x : 0 <= g -> okp st part facts -> in_ghosted g (fine_st part facts) x ->
  gets zone g st part facts @ tuple_of g (fine_st part facts) x = Some (srco zone g st part facts (moved g x)).
Proof. intros Hg H Hx. unfold gets. rewrite zlook_fmap. unfold tuple_of. rewrite allpos_look by done. done. Qed.
Lemma gets_result {A} zone g st part facts (fine coarse : da A) : 0 <= g -> fits g st part facts fine coarse ->
  exists r, result2 (da_nc fine) (foldM (FS (da_nc fine) (da_vals coarse)) (gets zone g st part facts) (da_vals fine, 0)) = Ok r /\
    da_alloc r = true /\ da_wf r /\ da_nc r = da_nc fine /\ da_nt r = da_nt fine /\
    (forall x cell c, in_ghosted g (fine_st part facts) x -> (zone = true -> ~ in_grid (fine_st part facts) x) -> source_of part facts cell x -> ij r (tuple_of g (fine_st part facts) x) c = ij coarse (tuple_of g st cell) c) /\
    (zone = true -> forall x c, in_grid (fine_st part facts) x -> ij r (tuple_of g (fine_st part facts) x) c = ij fine (tuple_of g (fine_st part facts) x) c).
Proof.
  intros Hg Hf. pose proof (fits_okp _ _ _ _ _ _ Hf) as Hk. destruct Hf as [_ _ _ _ [Hw1 Hw2] Hnc Hc Hfi]. destruct (da_wf_len _ Hw1) as (L1 & N1 & C1). destruct (da_wf_len _ Hw2) as (L2 & N2 & C2).
  assert (Forall (Z.le 0) (ghosted g (fine_st part facts))) as Hnn by (apply ghosted_nonneg; [done|by eapply fine_nonneg]).
  destruct (gather (da_nc fine) (da_vals coarse) (gets zone g st part facts) (da_vals fine)) as (out & H1 & H2 & H3).
  - done.
  - unfold gets. rewrite zlen_fmap, allpos_len by done. rewrite <- Hfi. lia.
  - intros i loc Hi. unfold gets in Hi. rewrite zlook_fmap in Hi. destruct (allpos _ @ i) as [q|] eqn:E; [|done]. cbn in Hi. injection Hi as Hi. apply allpos_at in E as [E _]; [|done].
    destruct (source_exists g st part facts q Hg Hk E) as (x & cell & -> & Hs). destruct (srcid_source g st part facts cell x Hg Hk E Hs) as [He Hin]. unfold srco in Hi. destruct (zone && _); [done|]. injection Hi as <-. rewrite He.
    pose proof (grid_id_range _ _ Hin) as Hr. unfold tuple_of. split; [lia|]. rewrite L2, Hc, Hnc. nia.
  - unfold result2. rewrite H1. cbn [bind fst]. exists (DA true (da_nc fine) out). split; [done|].
    assert (da_nt (DA true (da_nc fine) out) = da_nt fine) as Hnt by (unfold da_nt; cbn [da_nc da_vals]; by rewrite H2).
    split; [done|]. split; [split; [done|]; exists (da_nt fine); cbn [da_nc da_vals]; rewrite H2; done|]. split; [done|]. split; [done|]. split.
    + intros x cell c Hx Hz Hs. destruct (srcid_source g st part facts cell x Hg Hk Hx Hs) as [He Hin]. pose proof (grid_id_range _ _ Hin) as Hr. pose proof (grid_id_range _ _ Hx) as Hr2. unfold ij. cbn [da_nc da_vals].
      change (grid_id (ghosted g st) (moved g cell)) with (tuple_of g st cell) in Hr. change (grid_id (ghosted g (fine_st part facts)) (moved g x)) with (tuple_of g (fine_st part facts) x) in Hr2.
      rewrite Hnc. destruct ((0 <=? c) && (c <? da_nc coarse)) eqn:E.
      * replace ((0 <=? tuple_of g (fine_st part facts) x) && (0 <=? c) && (c <? da_nc coarse)) with true by lia. replace ((0 <=? tuple_of g st cell) && (0 <=? c) && (c <? da_nc coarse)) with true by lia.
        rewrite <- Hnc. rewrite H3 by lia. rewrite gets_at by done. unfold srco. destruct (zone && inner g part facts (moved g x)) eqn:Ez.
        -- apply andb_true_iff in Ez as [Ez1 Ez2]. apply (inner_in g st part facts x Hg Hk Hx) in Ez2. by destruct (Hz Ez1).
        -- by rewrite He.
      * rewrite <- !andb_assoc, E, !andb_false_r. done.
    + intros -> x c Hx. assert (in_ghosted g (fine_st part facts) x) as Hx' by (by apply moved_in). unfold ij. cbn [da_nc da_vals]. destruct (_ && _ && _) eqn:E; [|done]. rewrite H3 by lia. rewrite gets_at by done. unfold srco.
      assert (inner g part facts (moved g x) = true) as -> by (by apply (inner_in g st part facts x Hg Hk Hx')). done.
Qed.
Lemma spread_plain {A} st part facts (fine coarse : da A) : fits 0 st part facts fine coarse -> grid_nb facts < 2147483648 -> nonempty_box part -> last_equal facts ->
  exists r, SpreadCoarseToFine (Some coarse) st (Some fine) part facts = Ok r /\ spread 0 st part facts fine coarse r.
Proof.
  intros Hf Hb Hne Hl. rewrite plain_spread_prog by done. destruct (gets_result false 0 st part facts fine coarse) as (r & H1 & H2 & H3 & H4 & H5 & H6 & _); [lia|done|]. exists r. split; [done|].
  split; [done|]. split; [done|]. split; [done|]. split; [done|]. intros x cell c Hx Hs. by apply H6.
Qed.
Lemma spread_ghost {A} g st part facts (fine coarse : da A) : 0 <= g -> fits g st part facts fine coarse ->
  exists r, SpreadGhost false (Some coarse) st (Some fine) part facts g = Ok r /\ spread g st part facts fine coarse r.
Proof.
  intros Hg Hf. rewrite ghost_spread_prog by done. destruct (gets_result false g st part facts fine coarse) as (r & H1 & H2 & H3 & H4 & H5 & H6 & _); [lia|done|]. exists r. split; [done|].
  split; [done|]. split; [done|]. split; [done|]. split; [done|]. intros x cell c Hx Hs. by apply H6.
Qed.
Lemma spread_zone {A} g st part facts (fine coarse : da A) : 0 <= g -> fits g st part facts fine coarse ->
  exists r, SpreadGhost true (Some coarse) st (Some fine) part facts g = Ok r /\ zone_spread g st part facts fine coarse r.
Proof.
  intros Hg Hf. rewrite ghost_spread_prog by done. destruct (gets_result true g st part facts fine coarse) as (r & H1 & H2 & H3 & H4 & H5 & H6 & H7); [lia|done|]. exists r. split; [done|].
  split; [done|]. split; [done|]. split; [done|]. split; [done|]. split; [|by apply H7]. intros x cell c Hx Hn Hs. by apply H6.
Qed.
