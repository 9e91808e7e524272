(** Proofs: polygons and polyhedra of a mesh take the usual types. *)
From Coq Require Import QArith ZifyBool ZifyNat.
From Verif Require Import Base DataArray IndexSpec FillLib IndexProofs3 CellTable CellModel UmModel UmSpec UmProofs UmProofs2 UmProofs10 DgModel DgSpec DgProofs DgProofs2 DgProofs3 DgProofs4 DgProofs5 DgProofs6.
Local Open Scope Z_scope.

(** What the loop of unPolyze computes of a cell. *)
Definition unpolyOf (k : cm) (c : cell) : res cell :=
  if cm_dim k =? 2 then Ok (tryToUnPoly2D (cm_quad k) c.2) else if cm_dim k =? 3 then (let* z := getFullPolyh3DCell c.1 c.2 in tryToUnPoly3D z.1 z.2) else Ok (NORM_ERROR, []).
Lemma unpoly_cell c c' : unpolyzed c c' -> exists k, GetCellModel c.1 = Ok k /\ zlen c'.2 <= zlen c.2 /\ if cm_dyn k then unpolyOf k c = Ok c' else c' = c.
Proof.
  intros [[E ->]|[[E ->]|[(t & l & Ht & Hl & Hp & Hn & -> & ->)|(k & Hk & Hd & ->)]]].
  - rewrite E. eexists. split; [reflexivity|]. split; [done|]. cbn [cm_dyn]. done.
  - rewrite E. eexists. split; [reflexivity|]. split; [done|]. cbn [cm_dyn]. done.
  - pose proof (polyhedron_back t l Ht Hl Hp Hn) as HB. cbn [fst snd]. eexists. split; [reflexivity|]. split.
    + clear HB. pose proof (len_nat _ _ Hl) as Hl'. rewrite !elem_of_cons in Ht. destruct Ht as [->|[->|[->|[->|[->|Ht]]]]]; [..|by apply elem_of_nil in Ht].
      * destruct l as [|? [|? [|? [|? [|]]]]]; try discriminate Hl'. vm_compute; discriminate.
      * destruct l as [|? [|? [|? [|? [|? [|]]]]]]; try discriminate Hl'. vm_compute; discriminate.
      * destruct l as [|? [|? [|? [|? [|? [|? [|]]]]]]]; try discriminate Hl'. vm_compute; discriminate.
      * destruct l as [|? [|? [|? [|? [|? [|? [|? [|? [|]]]]]]]]]; try discriminate Hl'. vm_compute; discriminate.
      * destruct l as [|? [|? [|? [|? [|? [|? [|? [|? [|? [|? [|? [|? [|]]]]]]]]]]]]]; try discriminate Hl'. vm_compute; discriminate.
    + cbn [cm_dyn]. unfold unpolyOf. cbn [cm_dim fst snd]. unfold simplifyDegeneratedCell in HB.
      change (GetCellModel NORM_POLYHED) with (GetCellModel 31) in HB. cbn [bind] in HB. revert HB. destruct (GetCellModel 31) as [k| | |] eqn:Ek; try done. injection Ek as <-. cbn [bind cm_dim cm_quad].
      destruct (_ =? zlen _); [|done]. cbn [orb andb]. intros [= <- _]. exfalso. rewrite !elem_of_cons in Ht. destruct Ht as [Ht|[Ht|[Ht|[Ht|[Ht|Ht]]]]]; [discriminate..|by apply elem_of_nil in Ht].
  - exists k. rewrite Hd. done.
Qed.
Lemma buf_copy (D gap R : list Z) (c : cell) : exists gap', wrn (D ++ gap ++ pk c ++ R) (zlen D) (c.1 :: c.2) = Ok (D ++ c.1 :: c.2 ++ gap' ++ R) /\ zlen gap' = zlen gap.
Proof.
  set (W := gap ++ pk c). assert (zlen W = zlen gap + 1 + zlen c.2) as HW by (unfold W, pk; rewrite zlen_app, zlen_cons; lia). pose proof (zlen_nonneg D). pose proof (zlen_nonneg R). pose proof (zlen_nonneg gap).
  exists (drop (length (pk c)) W). split; [|unfold pk, zlen in *; rewrite drop_length; simpl; lia]. rewrite (app_assoc gap). fold W. change (c.1 :: c.2) with (pk c). unfold wrn, ubif.
  assert (zlen (pk c) = 1 + zlen c.2) as Hp by (unfold pk; rewrite zlen_cons; lia). rewrite !zlen_app, Hp. replace ((zlen D <? 0) || (zlen D + (zlen W + zlen R) <? zlen D + (1 + zlen c.2))) with false by lia. f_equal.
  replace (Z.to_nat (zlen D)) with (length D) by (unfold zlen; lia). rewrite take_app. rewrite <- Hp.
  replace (Z.to_nat (zlen D + zlen (pk c))) with (length D + length (pk c))%nat by (unfold zlen; lia). rewrite <- drop_drop, drop_app. rewrite drop_app_le by (unfold zlen in *; lia). done.
Qed.
Lemma setConn_false m cells kept : typed m cells -> fst <$> kept = fst <$> cells -> exists m', setConnectivity m (Some (concat (pk <$> kept))) (Some (psums (lens kept))) false = Ok m' /\ stores m' kept /\ typed m' kept /\ um_dim m' = um_dim m /\ um_coords m' = um_coords m.
Proof.
  intros Hty Hf. unfold setConnectivity. eexists. split; [done|]. split; [apply stores_sel|]. split; [|done]. destruct Hty as [Ha Hty]. split; [done|]. cbn. intros t. rewrite Hty. transitivity (t ∈ fst <$> cells); [|rewrite <- Hf]; rewrite elem_of_list_fmap; naive_solver.
Qed.

Lemma unpolyze_mesh m cells cells' : 2 <= um_dim m -> um_coords m <> None -> stores m cells -> typed m cells -> Forall2 unpolyzed cells cells' ->
  exists m' b, unPolyze m = Ok (m', b) /\ (b = true <-> fst <$> cells' <> fst <$> cells) /\ stores m' cells' /\ typed m' cells' /\ um_dim m' = um_dim m /\ um_coords m' = um_coords m.
Proof.
  intros Hdim Hco Hst Hty HF. destruct (stores_get m cells Hst) as (conn & connI & Ec & EI & Hsky & HN). unfold unPolyze, checkFullyDefined. rewrite Ec, EI. destruct (um_coords m) as [co|] eqn:Eco; [|done].
  unfold ifthrow. replace (um_dim m <? 0) with false by lia. replace (um_dim m <=? 1) with false by lia. rewrite (numCells_ok m cells Hst). cbn [bind]. pose proof (zlen_nonneg cells) as Hnn.
  pose proof (Forall2_length _ _ _ HF) as Hlen. assert (zlen cells' = zlen cells) as Hz by (unfold zlen; lia).
  destruct (Z.ltb_spec (zlen cells) 1) as [H0|H0].
  { assert (cells = []) as -> by (destruct cells; [done|rewrite zlen_cons in H0; pose proof (zlen_nonneg cells); lia]). apply Forall2_nil_inv_l in HF as ->. exists m, false. by rewrite Eco. }
  match goal with |- context [forZ 0 (zlen cells) ?f ?s0] => assert (wp (forZ 0 (zlen cells) f s0) (fun s => let '(conn', index, pos, newPos, ret) := s in
    take (Z.to_nat newPos) conn' = concat (pk <$> cells') /\ ret = negb (bool_decide (fst <$> cells' = fst <$> cells)) /\ index = psums (lens cells')) False) as HW end.
  { apply (wp_forZ (fun i s => let '(conn', index, pos, newPos, ret) := s in loopInv cells cells' (fun x => x) connI i conn' index pos newPos /\ ret = negb (bool_decide (fst <$> take (Z.to_nat i) cells' = fst <$> take (Z.to_nat i) cells)))); [done| | |].
    - split; [|done]. exists [], cells, [], cells', []. destruct Hsky as [-> HI]. split; [done|]. split; [done|]. split; [done|]. split; [done|]. split; [done|]. split; [done|]. split; [done|]. split; [done|].
      split; [done|]. split; [|done]. intros j Hj. change (zlen (A := cell) []) with 0 in Hj. replace j with 0 by lia. rewrite (prefix_sums_eq _ _ HI). unfold psums. rewrite !zlook_fmap, !zlook_seqZ; [done|..].
      + change (zlen (lens [])) with 0. lia.
      + change (zlen <$> (pk <$> cells)) with (lens cells). rewrite lens_len. lia.
    - intros i [[[[conn' index] pos] newPos] ret] Hi [(pre & post & pre' & post' & gap & -> & -> & Hpre & Hpre' & -> & -> & Hpos & Hpos2 & Hidx) Hret].
      destruct post as [|c post]; [rewrite app_nil_r in Hi; lia|]. destruct post' as [|c' post']; [rewrite app_nil_r in Hz; rewrite Hz in Hpre'; rewrite zlen_app, zlen_cons in Hpre'; pose proof (zlen_nonneg post); lia|].
      assert (unpolyzed c c') as (k & Hk & Hle & Hu)%unpoly_cell. { apply Forall2_app_inv in HF as [_ HF]; [|unfold zlen in *; lia]. by inversion HF. }
      pose proof (connI_next pre c post conn connI Hsky) as Hnext. rewrite Hpre in Hnext. pose proof (zlook_Some_lt _ _ _ Hnext) as Hb.
      assert (index @ (i + 1) = Some (zlen (concat (pk <$> pre)) + 1 + zlen c.2)) as Hrd. { destruct Hidx as (_ & _ & H3). rewrite H3 by lia. done. }
      assert (forall (a : list cell) x b, zlen a = i -> take (Z.to_nat i) (a ++ x :: b) = a) as Htake. { intros a x b Ha. replace (Z.to_nat i) with (length a) by (unfold zlen in Ha; lia). apply take_app. }
      assert (forall (a : list cell) x b, zlen a = i -> take (Z.to_nat (i + 1)) (a ++ x :: b) = a ++ [x]) as Htake2.
      { intros a x b Ha. change (x :: b) with ([x] ++ b). rewrite app_assoc. replace (Z.to_nat (i + 1)) with (length (a ++ [x])) by (rewrite app_length; unfold zlen in Ha; simpl; lia). apply take_app. }
      rewrite !Htake in Hret by done. rewrite !Htake2 by done.
      assert (negb (bool_decide (fst <$> (pre' ++ [c']) = fst <$> (pre ++ [c]))) = ret || negb (c'.1 =? c.1)) as Hret'.
      { rewrite Hret, !fmap_app. simpl. destruct (Z.eqb_spec c'.1 c.1) as [E|E].
        - rewrite E, orb_false_r. f_equal. apply bool_decide_ext. split; [|by intros ->]. intros X. by apply app_inv_tail in X.
        - rewrite orb_true_r. rewrite bool_decide_eq_false_2; [done|]. intros X. apply app_inj_tail in X as [_ X]. done. }
      rewrite Hret'.
      rewrite !(rd_ok _ _ _ Hrd). cbn [bind]. rewrite fmap_cons. cbn [concat]. set (D := concat (pk <$> pre')) in *. set (R := concat (pk <$> post)) in *. rewrite Hpos.
      rewrite buf_type. cbn [bind]. rewrite Hk. cbn [bind]. rewrite (buf_nodes D gap R c) by lia. cbn [bind].
      assert (zlen D + zlen c'.2 + 1 = zlen (concat (pk <$> (pre' ++ [c'])))) as HD. { rewrite fmap_app, concat_app, zlen_app. fold D. simpl. rewrite app_nil_r. change (pk c') with (c'.1 :: c'.2). rewrite zlen_cons. lia. }
      assert (exists conn2 gap', (if cm_dyn k then (let* s := unpolyOf k c in let* conn := wrn (D ++ gap ++ pk c ++ R) (zlen D + 1) s.2 in wr conn (zlen D) s.1) else wrn (D ++ gap ++ pk c ++ R) (zlen D) (c.1 :: c.2)) = Ok conn2 /\ conn2 = D ++ c'.1 :: c'.2 ++ gap' ++ R /\ zlen gap' = zlen gap + zlen c.2 - zlen c'.2) as (conn2 & gap' & Hw2 & -> & Hgap).
      { destruct (cm_dyn k).
        - rewrite Hu. cbn [bind]. destruct (buf_write D gap R c c'.2 Hle) as (x & gap' & -> & Hgap). cbn [bind]. rewrite buf_settype. eauto.
        - subst c'. destruct (buf_copy D gap R c) as (gap' & -> & Hgap). exists (D ++ c.1 :: c.2 ++ gap' ++ R), gap'. split; [done|]. split; [done|]. lia. }
      destruct (indexed_keep pre' c' i index connI) as (index' & Hw & Hidx'); [lia|lia|done|].
      replace (zlen pre' + 1) with (i + 1) in Hw by lia.
      assert (loopInv (pre ++ c :: post) (pre' ++ c' :: post') (fun x => x) connI (i + 1) (D ++ c'.1 :: c'.2 ++ gap' ++ R) index' (zlen (concat (pk <$> pre)) + 1 + zlen c.2) (zlen D + zlen c'.2 + 1)) as HL.
      { exists (pre ++ [c]), post, (pre' ++ [c']), post', gap'. split; [by rewrite <- app_assoc|]. split; [by rewrite <- app_assoc|]. split; [rewrite zlen_app; change (zlen [c]) with 1; lia|]. split; [rewrite zlen_app; change (zlen [c']) with 1; lia|].
        split. { rewrite fmap_app, concat_app. fold D R. simpl. rewrite app_nil_r. change (pk c') with (c'.1 :: c'.2). by rewrite <- app_assoc. }
        split; [done|]. split; [lia|]. split; [|done]. rewrite fmap_app, concat_app, zlen_app. simpl. rewrite app_nil_r. change (pk c) with (c.1 :: c.2). rewrite zlen_cons. lia. }
      rewrite <- HD in Hw.
      destruct (cm_dyn k) eqn:Edyn.
      + unfold unpolyOf in *. rewrite Hu in Hw2. match goal with |- context [if cm_dim k =? 2 then ?x else ?y] => replace (if cm_dim k =? 2 then x else y) with (@Ok (Z * list Z) c') by (symmetry; exact Hu) end. cbn [bind] in *. destruct (wrn _ _ c'.2) as [z| | |]; try done. cbn [bind] in *. rewrite Hw2. cbn [bind]. rewrite Hw. cbn [bind wp]. done.
      + subst c'. rewrite Hw2. cbn [bind].
        replace (zlen D + (zlen (concat (pk <$> pre)) + 1 + zlen c.2 - (zlen D + zlen gap))) with (zlen D + zlen c.2 + 1) by lia. rewrite Hw. cbn [bind wp]. rewrite Z.eqb_refl, orb_false_r. split; [|done]. done.
    - intros [[[[conn' index] pos] newPos] ret] [(pre & post & pre' & post' & gap & -> & -> & Hpre & Hpre' & -> & -> & Hpos & Hpos2 & Hidx) Hret].
      assert (post = []) as -> by (destruct post; [done|rewrite zlen_app, zlen_cons in Hpre; pose proof (zlen_nonneg post); lia]).
      assert (post' = []) as -> by (destruct post' as [|z post']; [done|rewrite (zlen_app pre'), zlen_cons in Hz; pose proof (zlen_nonneg post'); lia]).
      rewrite !app_nil_r in *. rewrite !take_ge in Hret by (unfold zlen in *; lia). split; [apply take_conn|]. split; [done|].
      rewrite <- (indexed_end pre' (zlen pre) index connI); [|lia|lia|done]. rewrite take_ge; [done|]. destruct Hidx as (HX & _). unfold zlen in *. lia. }
  apply wp_ok in HW as ([[[[conn' index] pos] newPos] ret] & -> & E1 & E2 & E3). cbn [bind]. rewrite E1, E3. destruct (bool_decide (fst <$> cells' = fst <$> cells)) eqn:Eb; cbn [negb] in E2; subst ret.
  - apply bool_decide_eq_true in Eb. destruct (setConn_false m cells cells' Hty Eb) as (m' & -> & H1 & H2 & H3 & H4). cbn [bind]. exists m', false. rewrite <- Eco. split; [done|]. split; [|done]. split; [done|]. intros X. by destruct X.
  - apply bool_decide_eq_false in Eb. destruct (setConn_ok m cells') as (m' & -> & H1 & H2 & H3 & H4). cbn [bind]. exists m', true. rewrite <- Eco. done.
Qed.

Lemma plane_cells cells : Forall (fun c => exists q, plane_cell q c) cells -> exists cells', Forall2 fits cells cells' /\ Forall2 (fun c c' => exists q, plane_cell q c /\ tidy q c c') cells cells' /\ forall c', c' ∈ cells' -> exists k, GetCellModel c'.1 = Ok k.
Proof.
  induction 1 as [|c cells [q Hq] _ (cells' & H1 & H2 & H3)]; [exists []; split; [done|]; split; [done|]; intros ? ?%elem_of_nil; done|].
  destruct (simplify_plane q c Hq) as (c' & Hs & Ht & Hle & k & Hk & _). exists (c' :: cells'). split; [by constructor|]. split; [constructor; eauto|]. intros x [->|Hx]%elem_of_cons; eauto.
Qed.
Lemma convert_plane m cells : 2 <= um_dim m -> um_coords m <> None -> stores m cells -> typed m cells -> Forall (fun c => exists q, plane_cell q c) cells ->
  exists cells', Forall2 (fun c c' => exists q, plane_cell q c /\ tidy q c c') cells cells' /\
    (exists m', convertDegeneratedCells m = Ok m' /\ stores m' cells' /\ typed m' cells' /\ um_dim m' = um_dim m /\ um_coords m' = um_coords m) /\
    (exists m', convertDegeneratedCellsAndRemoveFlatOnes m = Ok (m', flat_ids cells') /\ stores m' (List.filter (fun c => negb (flat_cell c)) cells') /\ typed m' (List.filter (fun c => negb (flat_cell c)) cells') /\ um_dim m' = um_dim m /\ um_coords m' = um_coords m).
Proof.
  intros Hd Hc Hs Ht HF. destruct (plane_cells cells HF) as (cells' & H1 & H2 & H3). exists cells'. split; [done|]. split; [by apply (convert_mesh m cells)|by apply (remove_mesh m cells)].
Qed.
Lemma convert_any m cells cells' : 2 <= um_dim m -> um_coords m <> None -> stores m cells -> typed m cells -> Forall2 (fun c c' => simplifyDegeneratedCell c.1 c.2 = Ok c' /\ zlen c'.2 <= zlen c.2) cells cells' ->
  exists m', convertDegeneratedCells m = Ok m' /\ stores m' cells' /\ typed m' cells' /\ um_dim m' = um_dim m /\ um_coords m' = um_coords m.
Proof. exact (convert_mesh m cells cells'). Qed.
Lemma flat_triangle m a b : 2 <= um_dim m -> um_coords m <> None -> stores m [(NORM_TRI3, [a; a; b])] -> typed m [(NORM_TRI3, [a; a; b])] -> 0 <= a -> 0 <= b -> a <> b ->
  exists m', convertDegeneratedCellsAndRemoveFlatOnes m = Ok (m', [0]) /\ stores m' [].
Proof.
  intros Hd Hc Hs Ht Ha Hb Hab. destruct (remove_mesh m [(NORM_TRI3, [a; a; b])] [(NORM_POLYGON, [a; b])] Hd Hc Hs Ht) as (m' & H1 & H2 & _).
  - constructor; [|done]. split; [|by vm_compute]. cbn [fst snd]. assert (size_eq : plane_cell false (NORM_TRI3, [a; a; b])).
    { eexists. split; [reflexivity|]. split; [done|]. split; [done|]. split; [cbn [fst snd]; intros n; rewrite !elem_of_cons, elem_of_nil; lia|]. by vm_compute. }
    destruct (simplify_plane false _ size_eq) as (c' & Hsi & (Hr & _ & Hty) & _). cbn [fst snd] in *. rewrite Hsi. f_equal. destruct c' as [t l]. cbn [fst snd] in *.
    assert (ring_edges l = [(a, b); (b, a)]) as El. { rewrite Hr. unfold ring_edges. cbn [drop take app zip zip_with]. rewrite filter_cons_False by (unfold null_edge; simpl; tauto). rewrite !filter_cons_True by (unfold null_edge; simpl; congruence). done. }
    assert (l = [a; b]) as ->. { assert (length l = 2%nat) as Hl. { apply (f_equal length) in El. unfold ring_edges in El. rewrite zip_with_length, app_length, drop_length, take_length in El. cbn [length] in El. lia. }
      destruct l as [|x [|y [|z l]]]; try discriminate Hl. vm_compute in El. injection El as E1 E2 E3 E4. by subst. }
    destruct Hty as [Hty _]; [|by rewrite Hty]. intros X. inversion X as [|? ? Hx]. set_solver.
  - intros c' ->%elem_of_list_singleton. eexists. reflexivity.
  - exists m'. split; [exact H1|exact H2].
Qed.
