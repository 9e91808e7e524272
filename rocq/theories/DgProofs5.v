(** Proofs: degenerated cells of a mesh; the connectivity is rewritten in its own buffer. *)
From Coq Require Import QArith ZifyBool ZifyNat.
From Verif Require Import Base DataArray IndexSpec FillLib IndexProofs3 CellTable CellModel UmModel UmSpec UmProofs UmProofs2 UmProofs10 DgModel DgSpec DgProofs DgProofs2 DgProofs3 DgProofs4.
Local Open Scope Z_scope.

Section buffer.
  Context (D gap R : list Z) (c : cell).
  Let X := D ++ gap ++ pk c ++ R.
  Lemma buf_type : rd X (zlen D + zlen gap) = Ok c.1.
  Proof using. apply rd_ok. unfold X. rewrite zlook_app_r by (pose proof (zlen_nonneg gap); lia). rewrite zlook_app_r by lia. replace (_ - _ - _) with 0 by lia. done. Qed.
  Lemma buf_nodes e : e = zlen D + zlen gap + 1 + zlen c.2 -> rdn X (zlen D + zlen gap + 1) (e - (zlen D + zlen gap) - 1) = Ok c.2.
  Proof using.
    intros ->. replace (zlen D + zlen gap + 1 + zlen c.2 - (zlen D + zlen gap) - 1) with (zlen c.2) by lia. unfold rdn, ubif, piece.
    assert (zlen X = zlen D + zlen gap + 1 + zlen c.2 + zlen R) as HX by (unfold X, pk; rewrite !zlen_app, zlen_cons; lia).
    pose proof (zlen_nonneg D). pose proof (zlen_nonneg gap). pose proof (zlen_nonneg R). pose proof (zlen_nonneg c.2).
    replace ((zlen D + zlen gap + 1 <? 0) || (zlen X <? zlen D + zlen gap + 1 + zlen c.2)) with false by lia. f_equal.
    replace (zlen D + zlen gap + 1 + zlen c.2 - (zlen D + zlen gap + 1)) with (zlen c.2) by lia.
    unfold X, pk. replace (D ++ gap ++ (c.1 :: c.2) ++ R) with ((D ++ gap ++ [c.1]) ++ c.2 ++ R) by (by rewrite <- !app_assoc).
    replace (Z.to_nat (zlen D + zlen gap + 1)) with (length (D ++ gap ++ [c.1])) by (rewrite !app_length; unfold zlen; simpl; lia).
    rewrite drop_app. replace (Z.to_nat (zlen c.2)) with (length c.2) by (unfold zlen; lia). by rewrite take_app.
  Qed.
  Lemma buf_write (l' : list Z) : zlen l' <= zlen c.2 -> exists x gap', wrn X (zlen D + 1) l' = Ok (D ++ x :: l' ++ gap' ++ R) /\ zlen gap' = zlen gap + zlen c.2 - zlen l'.
  Proof using.
    intros Hl. assert (exists x W, gap ++ pk c = x :: W /\ zlen W = zlen gap + zlen c.2) as (x & W & EW & HW).
    { destruct gap as [|g gp]; [exists c.1, c.2; split; [done|]; change (zlen (A := Z) []) with 0; lia|]. exists g, (gp ++ pk c). split; [done|]. unfold pk. rewrite zlen_app, !zlen_cons. lia. }
    exists x, (drop (length l') W). split; [|unfold zlen in *; rewrite drop_length; lia].
    assert (X = (D ++ [x]) ++ W ++ R) as ->. { unfold X. rewrite (app_assoc gap), EW. by rewrite <- app_assoc. }
    unfold wrn, ubif. pose proof (zlen_nonneg D). pose proof (zlen_nonneg R). rewrite !zlen_app, zlen_cons. change (zlen (A := Z) []) with 0.
    replace ((zlen D + 1 <? 0) || (zlen D + (1 + 0) + (zlen W + zlen R) <? zlen D + 1 + zlen l')) with false by (pose proof (zlen_nonneg gap); lia). f_equal.
    replace (Z.to_nat (zlen D + 1)) with (length (D ++ [x])) by (rewrite app_length; unfold zlen; simpl; lia). rewrite take_app.
    replace (Z.to_nat (zlen D + 1 + zlen l')) with (length (D ++ [x]) + length l')%nat by (rewrite app_length; unfold zlen; simpl; lia). rewrite <- drop_drop, drop_app.
    rewrite drop_app_le by (unfold zlen in *; lia). by rewrite <- !app_assoc.
  Qed.
End buffer.
Lemma buf_settype (D W : list Z) x t : wr (D ++ x :: W) (zlen D) t = Ok (D ++ t :: W).
Proof.
  pose proof (zlen_nonneg D). pose proof (zlen_nonneg W). rewrite wr_ok by (rewrite zlen_app, zlen_cons; lia). f_equal. unfold zset. replace (Z.to_nat (zlen D)) with (length D + 0)%nat by (unfold zlen; lia). by rewrite insert_app_r.
Qed.

(** The index while it is rewritten: [k] cells are kept among the first [i]. *)
Definition indexed (kept : list cell) (i : Z) (index connI : list Z) : Prop :=
  zlen index = zlen connI /\ (forall j, 0 <= j <= zlen kept -> index @ j = psums (lens kept) @ j) /\ (forall j, i < j -> index @ j = connI @ j).
Lemma lens_len kept : zlen (lens kept) = zlen kept.
Proof. unfold lens, zlen. by rewrite !fmap_length. Qed.
Lemma lens_sum kept : zsum (lens kept) = zlen (concat (pk <$> kept)).
Proof. unfold lens. by rewrite <- zsum_pre. Qed.
Lemma indexed_keep kept c' i index connI : zlen kept <= i -> i + 1 < zlen connI -> indexed kept i index connI ->
  exists index', wr index (zlen kept + 1) (zlen (concat (pk <$> (kept ++ [c'])))) = Ok index' /\ indexed (kept ++ [c']) (i + 1) index' connI.
Proof.
  intros Hk Hb (H1 & H2 & H3). pose proof (zlen_nonneg kept). rewrite wr_ok by lia. eexists. split; [done|]. split; [by rewrite zlen_zset|].
  assert (lens (kept ++ [c']) = lens kept ++ [zlen (pk c')]) as E by (unfold lens; by rewrite !fmap_app).
  split.
  - intros j Hj. rewrite zlen_app in Hj. change (zlen [c']) with 1 in Hj. rewrite E, psums_snoc_eq. pose proof (psums_len (lens kept)) as Hp. rewrite lens_len in Hp.
    rewrite zlook_zset by lia. destruct (decide (j = zlen kept + 1)) as [->|Hne].
    + replace (zlen kept + 1 =? zlen kept + 1) with true by lia. rewrite zlook_app_r by lia. rewrite Hp. replace (zlen kept + 1 - (zlen kept + 1)) with 0 by lia. rewrite fmap_app, concat_app, zlen_app, lens_sum. simpl. by rewrite app_nil_r.
    + replace (j =? zlen kept + 1) with false by lia. rewrite zlook_app_l by lia. apply H2. lia.
  - intros j Hj. rewrite zlook_zset by lia. replace (j =? zlen kept + 1) with false by lia. apply H3. lia.
Qed.
Lemma indexed_drop kept i index connI : zlen kept <= i -> i + 1 < zlen connI -> indexed kept i index connI ->
  exists index', wr index (zlen kept) (zlen (concat (pk <$> kept))) = Ok index' /\ indexed kept (i + 1) index' connI.
Proof.
  intros Hk Hb (H1 & H2 & H3). pose proof (zlen_nonneg kept). rewrite wr_ok by lia. eexists. split; [done|]. split; [by rewrite zlen_zset|]. split.
  - intros j Hj. rewrite zlook_zset by lia. destruct (decide (j = zlen kept)) as [->|Hne].
    + replace (zlen kept =? zlen kept) with true by lia. rewrite <- (lens_len kept), psums_end, lens_sum. done.
    + replace (j =? zlen kept) with false by lia. apply H2. lia.
  - intros j Hj. rewrite zlook_zset by lia. replace (j =? zlen kept) with false by lia. apply H3. lia.
Qed.
Lemma indexed_end kept n index connI : zlen kept <= n -> zlen connI = n + 1 -> indexed kept n index connI -> take (Z.to_nat (zlen kept + 1)) index = psums (lens kept).
Proof.
  intros Hk Hn (H1 & H2 & H3). pose proof (zlen_nonneg kept). pose proof (psums_len (lens kept)) as Hp. rewrite lens_len in Hp.
  assert (zlen (take (Z.to_nat (zlen kept + 1)) index) = zlen kept + 1) as E by (unfold zlen in *; rewrite take_length; lia).
  apply zlook_ext_lt; [lia|]. intros j Hj. rewrite zlook_take by lia. apply H2. lia.
Qed.

(** A cell and what becomes of it, which is not longer. *)
Definition fits (c c' : cell) : Prop := simplifyDegeneratedCell c.1 c.2 = Ok c' /\ zlen c'.2 <= zlen c.2.

Lemma setConn_ok m kept : exists m', setConnectivity m (Some (concat (pk <$> kept))) (Some (psums (lens kept))) true = Ok m' /\ stores m' kept /\ typed m' kept /\ um_dim m' = um_dim m /\ um_coords m' = um_coords m.
Proof.
  unfold setConnectivity. rewrite (types_ok kept) by apply (skyline_psums (pk <$> kept)). cbn [bind]. eexists. split; [done|]. split; [apply stores_sel|]. split; [by apply typed_types|]. done.
Qed.
Lemma take_conn (D W : list Z) : take (Z.to_nat (zlen D)) (D ++ W) = D.
Proof. replace (Z.to_nat (zlen D)) with (length D) by (unfold zlen; lia). apply take_app. Qed.

Definition keptOf (cells : list cell) : list cell := List.filter (fun c => negb (flat_cell c)) cells.
Lemma keptOf_app a b : keptOf (a ++ b) = keptOf a ++ keptOf b.
Proof. apply List.filter_app. Qed.
Lemma keptOf_len cells : zlen (keptOf cells) <= zlen cells.
Proof. unfold keptOf. induction cells as [|c l IH]; [done|]. cbn [List.filter]. destruct (negb (flat_cell c)); rewrite !zlen_cons; lia. Qed.

Lemma pk_concat (l : list cell) : zlen (concat (pk <$> l)) = zsum (lens l).
Proof. by rewrite lens_sum. Qed.
Lemma connI_next (pre : list cell) (c : cell) (post : list cell) conn connI : skyline (pk <$> (pre ++ c :: post)) conn connI -> connI @ (zlen pre + 1) = Some (zlen (concat (pk <$> pre)) + 1 + zlen c.2).
Proof.
  intros [_ E]. rewrite (prefix_sums_eq _ _ E). change (zlen <$> (pk <$> (pre ++ c :: post))) with (lens (pre ++ c :: post)).
  destruct (psums_delta (lens (pre ++ c :: post)) _ (zlen pre) (1 + zlen c.2) (psums_ok _)) as (a & H1 & H2).
  { unfold lens. rewrite !zlook_fmap. rewrite zlook_app_r by lia. rewrite Z.sub_diag. change ((c :: post) @ 0) with (Some c). simpl. unfold pk. by rewrite zlen_cons. }
  rewrite H2. f_equal. assert (a = zlen (concat (pk <$> pre))); [|lia].
  destruct (psums_ok (lens (pre ++ c :: post))) as [_ P]. rewrite P in H1 by (rewrite lens_len, zlen_app; pose proof (zlen_nonneg pre); pose proof (zlen_nonneg (c :: post)); lia). injection H1 as <-.
  rewrite <- lens_sum. f_equal. unfold lens. rewrite !fmap_app. replace (Z.to_nat (zlen pre)) with (length (zlen <$> (pk <$> pre))) by (rewrite !fmap_length; unfold zlen; lia). apply take_app.
Qed.

(** The state of the loops before cell number [i]. *)
Definition loopInv (cells cells' : list cell) (keep : list cell -> list cell) (connI : list Z) (i : Z) (conn index : list Z) (pos newPos : Z) : Prop :=
  exists pre post pre' post' gap, cells = pre ++ post /\ cells' = pre' ++ post' /\ zlen pre = i /\ zlen pre' = i /\
    conn = concat (pk <$> keep pre') ++ gap ++ concat (pk <$> post) /\ newPos = zlen (concat (pk <$> keep pre')) /\ pos = newPos + zlen gap /\
    pos = zlen (concat (pk <$> pre)) /\ indexed (keep pre') i index connI.

Lemma convert_mesh m cells cells' : 2 <= um_dim m -> um_coords m <> None -> stores m cells -> typed m cells -> Forall2 fits cells cells' ->
  exists m', convertDegeneratedCells m = Ok m' /\ stores m' cells' /\ typed m' cells' /\ um_dim m' = um_dim m /\ um_coords m' = um_coords m.
Proof.
  intros Hdim Hco Hst Hty HF. destruct (stores_get m cells Hst) as (conn & connI & Ec & EI & Hsky & HN). unfold convertDegeneratedCells, checkFullyDefined. rewrite Ec, EI. destruct (um_coords m) as [co|] eqn:Eco; [|done].
  unfold ifthrow. replace (um_dim m <=? 1) with false by lia. rewrite (numCells_ok m cells Hst). cbn [bind]. pose proof (zlen_nonneg cells) as Hnn.
  pose proof (Forall2_length _ _ _ HF) as Hlen. assert (zlen cells' = zlen cells) as Hz by (unfold zlen; lia).
  destruct (Z.ltb_spec (zlen cells) 1) as [H0|H0].
  { assert (cells = []) as -> by (destruct cells; [done|rewrite zlen_cons in H0; pose proof (zlen_nonneg cells); lia]). apply Forall2_nil_inv_l in HF as ->. exists m. by rewrite Eco. }
  match goal with |- context [forZ 0 (zlen cells) ?f ?s0] => assert (wp (forZ 0 (zlen cells) f s0) (fun s => let '(conn', index, pos, newPos) := s in take (Z.to_nat newPos) conn' = concat (pk <$> cells') /\ index = psums (lens cells')) False) as HW end.
  { apply (wp_forZ (fun i s => let '(conn', index, pos, newPos) := s in loopInv cells cells' (fun l => l) connI i conn' index pos newPos)); [done| | |].
    - exists [], cells, [], cells', []. destruct Hsky as [-> HI]. split; [done|]. split; [done|]. split; [done|]. split; [done|]. split; [done|]. split; [done|]. split; [done|]. split; [done|].
      split; [done|]. split; [|done]. intros j Hj. change (zlen (A := cell) []) with 0 in Hj. replace j with 0 by lia. rewrite (prefix_sums_eq _ _ HI). unfold psums. rewrite !zlook_fmap, !zlook_seqZ; [done|..].
      + change (zlen (lens [])) with 0. lia.
      + change (zlen <$> (pk <$> cells)) with (lens cells). rewrite lens_len. lia.
    - intros i [[[conn' index] pos] newPos] Hi (pre & post & pre' & post' & gap & -> & -> & Hpre & Hpre' & -> & -> & Hpos & Hpos2 & Hidx).
      destruct post as [|c post]; [rewrite app_nil_r in Hi; lia|]. destruct post' as [|c' post']; [rewrite app_nil_r in Hz; rewrite Hz in Hpre'; rewrite zlen_app, zlen_cons in Hpre'; pose proof (zlen_nonneg post); lia|].
      assert (fits c c') as [Hs Hle]. { apply Forall2_app_inv in HF as [_ HF]; [|unfold zlen in *; lia]. by inversion HF. }
      pose proof (connI_next pre c post conn connI Hsky) as Hnext. rewrite Hpre in Hnext. pose proof (zlook_Some_lt _ _ _ Hnext) as Hb.
      assert (index @ (i + 1) = Some (zlen (concat (pk <$> pre)) + 1 + zlen c.2)) as Hrd. { destruct Hidx as (_ & _ & H3). rewrite H3 by lia. done. }
      rewrite (rd_ok _ _ _ Hrd). cbn [bind]. rewrite fmap_cons. cbn [concat]. set (D := concat (pk <$> pre')) in *. set (R := concat (pk <$> post)) in *. rewrite Hpos.
      rewrite buf_type. cbn [bind]. rewrite (buf_nodes D gap R c) by lia. cbn [bind]. rewrite Hs. cbn [bind].
      destruct (buf_write D gap R c c'.2 Hle) as (x & gap' & -> & Hgap). cbn [bind]. rewrite buf_settype. cbn [bind].
      assert (zlen D + zlen c'.2 + 1 = zlen (concat (pk <$> (pre' ++ [c'])))) as HD. { rewrite fmap_app, concat_app, zlen_app. fold D. simpl. rewrite app_nil_r. unfold pk. rewrite zlen_cons. lia. }
      rewrite HD. destruct (indexed_keep pre' c' i index connI) as (index' & Hw & Hidx'); [lia|lia|done|]. rewrite Hpre' in Hw. rewrite Hw. cbn [bind wp].
      exists (pre ++ [c]), post, (pre' ++ [c']), post', gap'. split; [by rewrite <- app_assoc|]. split; [by rewrite <- app_assoc|]. split; [rewrite zlen_app; change (zlen [c]) with 1; lia|]. split; [rewrite zlen_app; change (zlen [c']) with 1; lia|].
      split. { rewrite fmap_app, concat_app. fold D R. simpl. rewrite app_nil_r. unfold pk. by rewrite <- app_assoc. }
      split; [done|]. split; [lia|]. split; [|done]. rewrite fmap_app, concat_app, zlen_app. simpl. rewrite app_nil_r. change (pk c) with (c.1 :: c.2). rewrite zlen_cons. lia.
    - intros [[[conn' index] pos] newPos] (pre & post & pre' & post' & gap & -> & -> & Hpre & Hpre' & -> & -> & Hpos & Hpos2 & Hidx).
      assert (post = []) as -> by (destruct post; [done|rewrite zlen_app, zlen_cons in Hpre; pose proof (zlen_nonneg post); lia]).
      assert (post' = []) as -> by (destruct post' as [|z post']; [done|rewrite (zlen_app pre'), zlen_cons in Hz; pose proof (zlen_nonneg post'); lia]).
      rewrite !app_nil_r in *. split; [apply take_conn|]. rewrite <- (indexed_end pre' (zlen pre) index connI); [|lia|lia|by rewrite Hpre in Hidx || done]. symmetry. apply take_ge. destruct Hidx as [Hl _]. unfold zlen in *. lia. }
  apply wp_ok in HW as ([[[conn' index] pos] newPos] & -> & E1 & E2). cbn [bind]. rewrite E1, E2. destruct (setConn_ok m cells') as (m' & -> & H1 & H2 & H3 & H4). exists m'. by rewrite <- Eco.
Qed.
