(** Proofs: the flat cells leave the mesh; polygons and polyhedra take usual types. *)
From Coq Require Import QArith ZifyBool ZifyNat.
From Verif Require Import Base DataArray IndexSpec FillLib IndexProofs3 CellTable CellModel UmModel UmSpec UmProofs UmProofs2 UmProofs10 DgModel DgSpec DgProofs DgProofs2 DgProofs3 DgProofs4 DgProofs5.
Local Open Scope Z_scope.

Lemma flat_read (D l' W : list Z) x t k : GetCellModel t = Ok k -> isFlatCell (D ++ x :: l' ++ W) (zlen D) (zlen l') t = Ok (flat_cell (t, l')).
Proof.
  intros Hk. unfold isFlatCell, flat_cell, quadratic_type. cbn [fst snd]. rewrite Hk. cbn [bind]. destruct (Z.leb_spec (zlen l') 2); [done|]. cbn [orb].
  destruct (cm_quad k); cbn [andb]; [|done]. destruct (Z.eqb_spec (zlen l') 4) as [E|E].
  - pose proof (len_nat l' 4 E) as E'. destruct l' as [|a [|b [|c [|d [|]]]]]; try discriminate E'. pose proof (zlen_nonneg D).
    assert (rd (D ++ x :: [a; b; c; d] ++ W) (zlen D + 1 + zlen [a; b; c; d] / 2) = Ok c) as ->. { apply rd_ok. rewrite E. change (4 / 2) with 2. rewrite zlook_app_r by lia. by replace (zlen D + 1 + 2 - zlen D) with 3 by lia. }
    cbn [bind].
    assert (rd (D ++ x :: [a; b; c; d] ++ W) (zlen D + 1 + zlen [a; b; c; d] / 2 + 1) = Ok d) as ->. { apply rd_ok. rewrite E. change (4 / 2) with 2. rewrite zlook_app_r by lia. by replace (zlen D + 1 + 2 + 1 - zlen D) with 4 by lia. }
    done.
  - destruct l' as [|a [|b [|c [|d [|]]]]]; try done.
Qed.
Lemma flat_ids_snoc l c : flat_ids (l ++ [c]) = flat_ids l ++ (if flat_cell c then [zlen l] else []).
Proof.
  unfold flat_ids. rewrite zlen_app. change (zlen [c]) with 1. pose proof (zlen_nonneg l). rewrite seqZ_app by lia. rewrite List.filter_app. f_equal.
  - apply filter_ext_in. intros i Hi. apply elem_of_list_In, elem_of_seqZ in Hi. rewrite zlook_app_l by lia. done.
  - rewrite Z.add_0_l. assert (seqZ (zlen l) 1 = [zlen l]) as -> by (rewrite seqZ_cons by lia; done). cbn [List.filter]. rewrite zlook_app_r by lia. rewrite Z.sub_diag. change ([c] @ 0) with (Some c). by destruct (flat_cell c).
Qed.
Lemma flat_ids_len l : zlen (flat_ids l) = zlen l - zlen (keptOf l).
Proof.
  induction l as [|c l IH] using rev_ind; [done|]. rewrite flat_ids_snoc, keptOf_app. unfold keptOf at 2. cbn [List.filter]. unfold zlen in *. destruct (flat_cell c); cbn [negb]; rewrite !app_length; cbn [length]; lia.
Qed.

Lemma remove_mesh m cells cells' : 2 <= um_dim m -> um_coords m <> None -> stores m cells -> typed m cells -> Forall2 fits cells cells' -> (forall c', c' ∈ cells' -> exists k, GetCellModel c'.1 = Ok k) ->
  exists m', convertDegeneratedCellsAndRemoveFlatOnes m = Ok (m', flat_ids cells') /\ stores m' (keptOf cells') /\ typed m' (keptOf cells') /\ um_dim m' = um_dim m /\ um_coords m' = um_coords m.
Proof.
  intros Hdim Hco Hst Hty HF Hmod. destruct (stores_get m cells Hst) as (conn & connI & Ec & EI & Hsky & HN). unfold convertDegeneratedCellsAndRemoveFlatOnes, checkFullyDefined. rewrite Ec, EI. destruct (um_coords m) as [co|] eqn:Eco; [|done].
  unfold ifthrow. replace (um_dim m <=? 1) with false by lia. rewrite (numCells_ok m cells Hst). cbn [bind]. pose proof (zlen_nonneg cells) as Hnn.
  pose proof (Forall2_length _ _ _ HF) as Hlen. assert (zlen cells' = zlen cells) as Hz by (unfold zlen; lia).
  destruct (Z.ltb_spec (zlen cells) 1) as [H0|H0].
  { assert (cells = []) as -> by (destruct cells; [done|rewrite zlen_cons in H0; pose proof (zlen_nonneg cells); lia]). apply Forall2_nil_inv_l in HF as ->. exists m. by rewrite Eco. }
  match goal with |- context [forZ 0 (zlen cells) ?f ?s0] => assert (wp (forZ 0 (zlen cells) f s0) (fun s => let '(conn', index, pos, newPos, ret) := s in
    take (Z.to_nat newPos) conn' = concat (pk <$> keptOf cells') /\ ret = flat_ids cells' /\ take (Z.to_nat (zlen cells - zlen ret + 1)) index = psums (lens (keptOf cells'))) False) as HW end.
  { apply (wp_forZ (fun i s => let '(conn', index, pos, newPos, ret) := s in loopInv cells cells' keptOf connI i conn' index pos newPos /\ ret = flat_ids (take (Z.to_nat i) cells'))); [done| | |].
    - split; [|done]. exists [], cells, [], cells', []. destruct Hsky as [-> HI]. split; [done|]. split; [done|]. split; [done|]. split; [done|]. split; [done|]. split; [done|]. split; [done|]. split; [done|].
      split; [done|]. split; [|done]. intros j Hj. change (zlen (keptOf [])) with 0 in Hj. replace j with 0 by lia. rewrite (prefix_sums_eq _ _ HI). unfold psums. rewrite !zlook_fmap, !zlook_seqZ; [done|..].
      + change (zlen (lens (keptOf []))) with 0. lia.
      + change (zlen <$> (pk <$> cells)) with (lens cells). rewrite lens_len. lia.
    - intros i [[[[conn' index] pos] newPos] ret] Hi [(pre & post & pre' & post' & gap & -> & -> & Hpre & Hpre' & -> & -> & Hpos & Hpos2 & Hidx) Hret].
      destruct post as [|c post]; [rewrite app_nil_r in Hi; lia|]. destruct post' as [|c' post']; [rewrite app_nil_r in Hz; rewrite Hz in Hpre'; rewrite zlen_app, zlen_cons in Hpre'; pose proof (zlen_nonneg post); lia|].
      assert (fits c c') as [Hs Hle]. { apply Forall2_app_inv in HF as [_ HF]; [|unfold zlen in *; lia]. by inversion HF. }
      destruct (Hmod c') as [k' Hk']; [set_solver|].
      pose proof (connI_next pre c post conn connI Hsky) as Hnext. rewrite Hpre in Hnext. pose proof (zlook_Some_lt _ _ _ Hnext) as Hb.
      assert (index @ (i + 1) = Some (zlen (concat (pk <$> pre)) + 1 + zlen c.2)) as Hrd. { destruct Hidx as (_ & _ & H3). rewrite H3 by lia. done. }
      assert (take (Z.to_nat i) (pre' ++ c' :: post') = pre') as Htake. { replace (Z.to_nat i) with (length pre') by (unfold zlen in Hpre'; lia). apply take_app. }
      rewrite Htake in Hret. assert (take (Z.to_nat (i + 1)) (pre' ++ c' :: post') = pre' ++ [c']) as Htake2.
      { change (c' :: post') with ([c'] ++ post'). rewrite app_assoc. replace (Z.to_nat (i + 1)) with (length (pre' ++ [c'])) by (rewrite app_length; unfold zlen in Hpre'; simpl; lia). apply take_app. }
      rewrite Htake2, flat_ids_snoc, Hpre', <- Hret. pose proof (flat_ids_len pre') as Hfl. rewrite <- Hret, Hpre' in Hfl. pose proof (keptOf_len pre') as Hkl.
      rewrite !(rd_ok _ _ _ Hrd). cbn [bind]. rewrite fmap_cons. cbn [concat]. set (D := concat (pk <$> keptOf pre')) in *. set (R := concat (pk <$> post)) in *. rewrite Hpos.
      rewrite buf_type. cbn [bind]. rewrite (buf_nodes D gap R c) by lia. cbn [bind]. rewrite Hs. cbn [bind].
      destruct (buf_write D gap R c c'.2 Hle) as (x & gap' & -> & Hgap). cbn [bind]. rewrite (flat_read _ _ _ _ _ _ Hk'). cbn [bind]. replace (c'.1, c'.2) with c' by (by destruct c').
      assert (keptOf (pre' ++ [c']) = keptOf pre' ++ if flat_cell c' then [] else [c']) as Hkeep. { rewrite keptOf_app. f_equal. unfold keptOf. cbn [List.filter]. by destruct (flat_cell c'). }
      destruct (flat_cell c') eqn:Efl.
      + cbn [bind]. rewrite zlen_app. change (zlen [i]) with 1. replace (i + 1 - (zlen ret + 1)) with (zlen (keptOf pre')) by lia.
        destruct (indexed_drop (keptOf pre') i index connI) as (index' & Hw & Hidx'); [lia|lia|done|]. fold D in Hw. rewrite Hw. cbn [bind wp]. rewrite app_nil_r in Hkeep. split; [|done].
        exists (pre ++ [c]), post, (pre' ++ [c']), post', (x :: c'.2 ++ gap'). rewrite Hkeep. fold D. split; [by rewrite <- app_assoc|]. split; [by rewrite <- app_assoc|]. split; [rewrite zlen_app; change (zlen [c]) with 1; lia|]. split; [rewrite zlen_app; change (zlen [c']) with 1; lia|].
        split. { fold R. simpl. by rewrite <- app_assoc. }
        split; [done|]. split; [rewrite zlen_cons, zlen_app; lia|]. split; [|done]. rewrite fmap_app, concat_app, zlen_app. simpl. rewrite app_nil_r. change (pk c) with (c.1 :: c.2). rewrite zlen_cons. lia.
      + rewrite buf_settype. cbn [bind]. rewrite app_nil_r. replace (i + 1 - zlen ret) with (zlen (keptOf pre') + 1) by lia.
        assert (zlen D + zlen c'.2 + 1 = zlen (concat (pk <$> (keptOf pre' ++ [c'])))) as HD. { rewrite fmap_app, concat_app, zlen_app. fold D. simpl. rewrite app_nil_r. change (pk c') with (c'.1 :: c'.2). rewrite zlen_cons. lia. }
        rewrite HD. destruct (indexed_keep (keptOf pre') c' i index connI) as (index' & Hw & Hidx'); [lia|lia|done|]. rewrite Hw. cbn [bind wp]. split; [|done].
        exists (pre ++ [c]), post, (pre' ++ [c']), post', gap'. rewrite Hkeep. split; [by rewrite <- app_assoc|]. split; [by rewrite <- app_assoc|]. split; [rewrite zlen_app; change (zlen [c]) with 1; lia|]. split; [rewrite zlen_app; change (zlen [c']) with 1; lia|].
        split. { rewrite fmap_app, concat_app. fold D R. simpl. rewrite app_nil_r. change (pk c') with (c'.1 :: c'.2). by rewrite <- app_assoc. }
        split; [done|]. split; [lia|]. split; [|done]. rewrite fmap_app, concat_app, zlen_app. simpl. rewrite app_nil_r. change (pk c) with (c.1 :: c.2). rewrite zlen_cons. lia.
    - intros [[[[conn' index] pos] newPos] ret] [(pre & post & pre' & post' & gap & -> & -> & Hpre & Hpre' & -> & -> & Hpos & Hpos2 & Hidx) Hret].
      assert (post = []) as -> by (destruct post; [done|rewrite zlen_app, zlen_cons in Hpre; pose proof (zlen_nonneg post); lia]).
      assert (post' = []) as -> by (destruct post' as [|z post']; [done|rewrite (zlen_app pre'), zlen_cons in Hz; pose proof (zlen_nonneg post'); lia]).
      rewrite !app_nil_r in *. rewrite take_ge in Hret by (unfold zlen in *; lia). split; [apply take_conn|]. split; [done|]. pose proof (flat_ids_len pre') as Hfl. rewrite <- Hret in Hfl. pose proof (keptOf_len pre').
      replace (zlen pre - zlen ret + 1) with (zlen (keptOf pre') + 1) by lia. apply (indexed_end _ (zlen pre) index connI); [lia|lia|done]. }
  apply wp_ok in HW as ([[[[conn' index] pos] newPos] ret] & -> & E1 & E2 & E3). cbn [bind]. rewrite E1, E3. destruct (setConn_ok m (keptOf cells')) as (m' & -> & H1 & H2 & H3 & H4). cbn [bind]. exists m'. rewrite E2. by rewrite <- Eco.
Qed.
