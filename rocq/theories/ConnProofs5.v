From Verif Require Import Base DataArray ArrLib FillLib RenumProofs LayoutProofs2 IndexSpec IndexProofs IndexProofs2 IndexProofs3 IndexProofs4 IndexProofs5 SearchSpec StdProofs SkyModel SkyProofs SkyProofs8 StrModel StrSpec StrProofs StrProofs2 ConnModel ConnSpec ConnProofs ConnProofs2 ConnProofs3 ConnProofs4.
From Coq Require Import ZifyBool ZifyNat.

Definition bit (x : Z) : Prop := x = 0 \/ x = 1.
Definition offsets (d : nat) (l : list (list Z)) : Prop := NoDup l /\ forall o, o ∈ l <-> Forall bit o /\ length o = d.
Lemma all_offsets d l : NoDup l -> Forall (fun o => Forall bit o /\ length o = d) l -> (forall o, Forall bit o -> length o = d -> o ∈ l) -> offsets d l.
Proof. intros H1 H2 H3. split; [done|]. intros o. split; [intros Ho; rewrite Forall_forall in H2; by apply H2|]. intros [? ?]. by apply H3. Qed.
Lemma bits1 o : Forall bit o -> length o = 1%nat -> exists x, bit x /\ o = [x].
Proof. intros H. destruct o as [|x [|]]; intros; try done. rewrite Forall_cons in H. exists x. tauto. Qed.
Lemma bits2 o : Forall bit o -> length o = 2%nat -> exists x y, bit x /\ bit y /\ o = [x; y].
Proof. intros H. destruct o as [|x [|y [|]]]; intros; try done. rewrite !Forall_cons in H. exists x, y. tauto. Qed.
Lemma bits3 o : Forall bit o -> length o = 3%nat -> exists x y z, bit x /\ bit y /\ bit z /\ o = [x; y; z].
Proof. intros H. destruct o as [|x [|y [|z [|]]]]; intros; try done. rewrite !Forall_cons in H. exists x, y, z. tauto. Qed.
Lemma conn_offsets d : 1 <= d <= 3 -> offsets (Z.to_nat d) (conn_order d) /\ offsets (Z.to_nat d) (ids_order d).
Proof.
  intros Hd. assert (d = 1 \/ d = 2 \/ d = 3) as [-> | [-> | ->]] by lia; split; (apply all_offsets; [apply (bool_decide_unpack _); vm_compute; done| |]).
  1,3,5,7,9,11: repeat (constructor; [split; [repeat (constructor; [unfold bit; lia|]); constructor|done]|]); constructor.
  1,2: intros o Ho Hl; destruct (bits1 o Ho Hl) as (x & [-> | ->] & ->); apply (bool_decide_unpack _); vm_compute; done.
  1,2: intros o Ho Hl; destruct (bits2 o Ho Hl) as (x & y & [-> | ->] & [-> | ->] & ->); apply (bool_decide_unpack _); vm_compute; done.
  1,2: intros o Ho Hl; destruct (bits3 o Ho Hl) as (x & y & z & [-> | ->] & [-> | ->] & [-> | ->] & ->); apply (bool_decide_unpack _); vm_compute; done.
Qed.
Lemma corner_offset cp pos : corner cp pos <-> exists o, Forall bit o /\ length o = length cp /\ pos = zip_with Z.add cp o.
Proof.
  split.
  - induction 1 as [|c p cp pos Hp _ (o & Ho & Hl & ->)]; [exists []; done|]. exists ((p - c) :: o). split; [constructor; [unfold bit; lia|done]|]. split; [simpl; lia|]. simpl. f_equal. lia.
  - intros (o & Ho & Hl & ->). revert o Ho Hl. induction cp as [|c cp IH]; intros [|x o] Ho Hl; try done; [constructor|]. inversion Ho as [|?? [-> | ->]]; subst; (constructor; [lia|apply IH; [done|simpl in Hl; lia]]).
Qed.
Lemma corner_in z cp pos : in_grid (cells_st z) cp -> corner cp pos -> in_grid z pos.
Proof.
  revert cp pos. induction z as [|n z IH]; intros cp pos Hc Hco; inversion Hc as [|? c ? cp' Hc0 Hc']; subst; inversion Hco; subst; [constructor|]. constructor; [lia|]. eapply IH; done.
Qed.
Lemma offsets_nodes z cp ord : in_grid (cells_st z) cp -> offsets (length z) ord -> NoDup (corner_at z cp <$> ord) /\ forall n, n ∈ corner_at z cp <$> ord <-> node_of z cp n.
Proof.
  intros Hc [Hnd Ho]. assert (length cp = length z) as Hl. { apply Forall2_length in Hc. unfold cells_st in Hc. rewrite fmap_length in Hc. done. }
  assert (forall o, o ∈ ord -> corner cp (zip_with Z.add cp o)) as Hco. { intros o Hin. apply Ho in Hin as [? ?]. apply corner_offset. exists o. split; [done|]. split; [lia|done]. }
  split.
  - apply NoDup_fmap_2_strong; [|done]. intros o o' Hin Hin' He. unfold corner_at in He. apply grid_id_inj in He; [|eapply corner_in; [done|by apply Hco]..].
    apply Ho in Hin as [_ L1]. apply Ho in Hin' as [_ L2]. clear -He L1 L2 Hl. revert o o' z L1 L2 Hl He. induction cp as [|c cp IH]; intros [|x o] [|x' o'] z L1 L2 Hl He; simpl in *; try lia; try done.
    destruct z as [|n z]; [done|]. injection He as He1 He2. f_equal; [lia|]. apply (IH o o' z); simpl in *; try lia; done.
  - intros n. rewrite elem_of_list_fmap. split.
    + intros (o & -> & Hin). exists (zip_with Z.add cp o). split; [|split; [done|by apply Hco]]. eapply corner_in; [done|by apply Hco].
    + intros (pos & Hg & -> & Hx). apply corner_offset in Hx as (o & Hb & Hlo & ->). exists o. split; [done|]. apply Ho. split; [done|]. lia.
Qed.

Lemma nb_corners_thick ngs : Forall (Z.le 1) ngs -> nb_corners ngs = 2 ^ zlen (thick ngs).
Proof.
  induction 1 as [|n ngs Hn _ IH]; [done|]. rewrite thick_cons. cbn [nb_corners]. destruct (2 <=? n) eqn:E.
  - replace (n =? 1) with false by lia. rewrite zlen_cons. pose proof (zlen_nonneg (thick ngs)). rewrite Z.add_comm, Z.pow_add_r by lia. rewrite IH. lia.
  - replace (n =? 1) with true by lia. lia.
Qed.
Lemma blocks_look z cp : in_grid (cells_st z) cp -> blocks z @ grid_id (cells_st z) cp = Some (block z cp).
Proof. intros H. unfold blocks. rewrite zlook_fmap, allpos_look by done. done. Qed.
Lemma build_thick ngs : grid_ok ngs -> thick ngs <> [] -> dim_ok (thick ngs) /\ Build1GTNodalConnectivity ngs = Ok (concat (blocks (thick ngs))).
Proof.
  intros Hok Hne. unfold Build1GTNodalConnectivity. rewrite zip_ok by done. cbn [bind]. destruct Hok as [Hd H]. pose proof (thick_len ngs). unfold dim_ok in Hd.
  assert (dim_ok (thick ngs)) as Hdt. { unfold dim_ok. destruct (thick ngs); [done|]. rewrite zlen_cons in *. pose proof (zlen_nonneg l). lia. }
  split; [done|]. pose proof (thick_ok ngs) as H2. destruct (wp_length3 _ Hdt) as [(n & E)|[(n & m & E)|(n & m & o & E)]]; rewrite E in *; repeat match goal with H : Forall _ (_ :: _) |- _ => inversion H; clear H; subst end.
  - apply build1_ok; lia.
  - apply build2_ok; lia.
  - apply build3_ok; lia.
Qed.
Lemma build_spec ngs : grid_ok ngs -> exists bs, Build1GTNodalConnectivity ngs = Ok (concat bs) /\ zlen bs = grid_nb (cell_axes ngs) /\
  forall cp, in_grid (cell_axes ngs) cp -> exists b, bs @ grid_id (cell_axes ngs) cp = Some b /\ zlen b = nb_corners ngs /\ NoDup b /\ forall n, n ∈ b <-> node_of ngs cp n.
Proof.
  intros Hok. assert (Forall (Z.le 1) ngs) as H1 by apply Hok.
  assert (grid_nb (cell_axes ngs) = grid_nb (cells_st (thick ngs))) as Hnb.
  { clear Hok. induction H1 as [|n ngs Hn _ IH]; [done|]. rewrite thick_cons. change (Z.max 1 (n - 1) * grid_nb (cell_axes ngs) = grid_nb (cells_st (if 2 <=? n then n :: thick ngs else thick ngs))). rewrite IH. destruct (2 <=? n) eqn:E; [change (grid_nb (cells_st (n :: thick ngs))) with ((n - 1) * grid_nb (cells_st (thick ngs))); replace (Z.max 1 (n - 1)) with (n - 1) by lia; done|]. replace (Z.max 1 (n - 1)) with 1 by lia. lia. }
  destruct (decide (thick ngs = [])) as [E|Hne].
  - exists [[0]]. split; [unfold Build1GTNodalConnectivity; rewrite zip_ok by done; cbn [bind]; rewrite E; done|]. split; [rewrite Hnb, E; done|]. intros cp Hc. destruct (flt_cell ngs cp H1 Hc) as [Hf He]. exists [0]. rewrite E in Hf, He. apply Forall2_nil_inv_l in Hf as Hf0. rewrite Hf0 in He. simpl in He. rewrite <- He.
    split; [done|]. rewrite nb_corners_thick, E by done. split; [done|]. split; [apply (bool_decide_unpack _); vm_compute; done|]. intros n. rewrite node_of_flat by done. rewrite E, Hf0. rewrite elem_of_list_singleton. split.
    + intros ->. exists []. split; [constructor|]. split; [done|constructor].
    + intros (pos & Hg & -> & _). inversion Hg. done.
  - destruct (build_thick ngs Hok Hne) as [Hd Hb]. exists (blocks (thick ngs)). split; [done|]. split; [rewrite Hnb; apply blocks_len; eapply Forall_impl; [apply thick_ok|intros; simpl in *; lia]|].
    intros cp Hc. destruct (flt_cell ngs cp H1 Hc) as [Hf He]. exists (block (thick ngs) (flt ngs cp)). rewrite <- He. split; [by apply blocks_look|]. split; [rewrite block_len, nb_corners_thick by done; done|].
    destruct (conn_offsets (zlen (thick ngs)) Hd) as [Ho _]. destruct (offsets_nodes (thick ngs) (flt ngs cp) (conn_order (zlen (thick ngs))) Hf) as [Hnd Hn]; [replace (length (thick ngs)) with (Z.to_nat (zlen (thick ngs))) by (unfold zlen; lia); done|].
    split; [done|]. intros n. rewrite node_of_flat by done. apply Hn.
Qed.
Lemma build_throw ngs : ~ grid_ok ngs -> Build1GTNodalConnectivity ngs = Throw.
Proof. intros H. unfold Build1GTNodalConnectivity. rewrite zip_throw by done. done. Qed.
Lemma thick_all ngs : Forall (Z.le 2) ngs -> thick ngs = ngs.
Proof. induction 1 as [|n ngs Hn _ IH]; [done|]. rewrite thick_cons, IH. replace (2 <=? n) with true by lia. done. Qed.
Lemma axes_all ngs : Forall (Z.le 2) ngs -> cell_axes ngs = cells_st ngs.
Proof. intros H. unfold cell_axes, cells_st. apply list_fmap_ext. intros i n Hn. rewrite Forall_forall in H. apply elem_of_list_lookup_2, H in Hn. simpl. lia. Qed.
Lemma build_order ngs : no_flat ngs -> exists bs, Build1GTNodalConnectivity ngs = Ok (concat bs) /\ zlen bs = grid_nb (cells_st ngs) /\
  forall cp, in_grid (cells_st ngs) cp -> bs @ grid_id (cells_st ngs) cp = Some (corner_at ngs cp <$> conn_order (zlen ngs)).
Proof.
  intros [Hd H2]. assert (grid_ok ngs) as Hok. { split; [done|]. eapply Forall_impl; [exact H2|intros; simpl in *; lia]. }
  destruct (build_thick ngs Hok) as [_ Hb]; [rewrite thick_all by done; by apply dim_ok_ne|]. rewrite thick_all in Hb by done. exists (blocks ngs). split; [done|]. split; [apply blocks_len, Hok|]. intros cp Hc. by apply blocks_look.
Qed.

(** ** getNodeIdsOfCell *)
Lemma node_ids ngs cp conn : no_flat ngs -> in_grid (cells_st ngs) cp ->
  getNodeIdsOfCell ngs (grid_id (cells_st ngs) cp) conn = Ok (conn ++ (corner_at ngs cp <$> ids_order (zlen ngs))).
Proof.
  intros [Hd H2] Hc. assert (Forall (Z.lt 1) ngs) as H1 by (eapply Forall_impl; [exact H2|intros; simpl in *; lia]). unfold getNodeIdsOfCell. rewrite meshDim_ok by done. cbn [bind]. rewrite cgs_eq.
  destruct (split_ok (cells_st ngs)) as (sc & -> & Hsc). cbn [bind]. destruct (split_ok ngs) as (sn & -> & Hsn). cbn [bind].
  destruct (getpos_ok _ _ (grid_id (cells_st ngs) cp) (replicate (Z.to_nat (zlen (cells_st ngs))) 0) Hsc) as (pos & -> & Hg & He).
  { by apply cells_pos. } { by apply grid_id_range. } { rewrite zlen_replicate. pose proof (zlen_nonneg (cells_st ngs)). lia. }
  apply grid_id_inj in He; [|done..]. subst pos. cbn [bind]. destruct Hsn as [Hsl Hs].
  destruct (wp_length3 ngs Hd) as [(n & ->)|[(n & m & ->)|(n & m & o & ->)]].
  - inversion Hc as [|? p ? ? Hp Hc']; subst. inversion Hc'; subst. change (zlen (cells_st [n])) with 1. change (1 =? 1) with true. cbv iota. rewrite (rd_ok [p] 0 p) by done. cbn [bind]. do 2 f_equal. unfold corner_at. simpl. lists.
  - inversion Hc as [|? p ? ? Hp Hc']; subst. inversion Hc' as [|? q ? ? Hq Hc2]; subst. inversion Hc2; subst. change (zlen (cells_st [n; m])) with 2. change (2 =? 1) with false. change (2 =? 2) with true. cbv iota.
    rewrite (rd_ok [p; q] 0 p), (rd_ok [p; q] 1 q) by done. cbn [bind]. rewrite (rd_ok sn 1 n); [|rewrite Hs by done; change (take (Z.to_nat 1) [n; m]) with [n]; cbn [grid_nb]; f_equal; lia]. cbn [bind]. do 2 f_equal. unfold corner_at. simpl. lists.
  - inversion Hc as [|? p ? ? Hp Hc']; subst. inversion Hc' as [|? q ? ? Hq Hc2]; subst. inversion Hc2 as [|? r ? ? Hr Hc3]; subst. inversion Hc3; subst. change (zlen (cells_st [n; m; o])) with 3. change (3 =? 1) with false. change (3 =? 2) with false. change (3 =? 3) with true. cbv iota.
    rewrite (rd_ok [p; q; r] 0 p), (rd_ok [p; q; r] 1 q), (rd_ok [p; q; r] 2 r) by done. cbn [bind]. rewrite (rd_ok sn 1 n); [|rewrite Hs by done; change (take (Z.to_nat 1) [n; m; o]) with [n]; cbn [grid_nb]; f_equal; lia]. cbn [bind].
    rewrite (rd_ok sn 2 (n * m)); [|rewrite Hs by done; change (take (Z.to_nat 2) [n; m; o]) with [n; m]; cbn [grid_nb]; f_equal; lia]. cbn [bind]. do 2 f_equal. unfold corner_at. simpl. lists.
Qed.
Lemma node_ids_set ngs cp : no_flat ngs -> in_grid (cells_st ngs) cp -> exists b, (forall conn, getNodeIdsOfCell ngs (grid_id (cells_st ngs) cp) conn = Ok (conn ++ b)) /\ NoDup b /\ zlen b = nb_corners ngs /\ forall n, n ∈ b <-> node_of ngs cp n.
Proof.
  intros Hn Hc. exists (corner_at ngs cp <$> ids_order (zlen ngs)). split; [intros conn; by apply node_ids|]. destruct Hn as [Hd H2]. destruct (conn_offsets (zlen ngs) Hd) as [_ Ho].
  destruct (offsets_nodes ngs cp (ids_order (zlen ngs)) Hc) as [Hnd Hm]; [replace (length ngs) with (Z.to_nat (zlen ngs)) by (unfold zlen; lia); done|]. split; [done|]. split; [|done].
  rewrite nb_corners_thick, thick_all by (first [done|eapply Forall_impl; [exact H2|]; intros; simpl in *; lia]). destruct (wp_length3 ngs Hd) as [(n & ->)|[(n & m & ->)|(n & m & o & ->)]]; done.
Qed.

(** ** Transposition *)
Lemma grid_id_onto st i : Forall (Z.lt 0) st -> 0 <= i < grid_nb st -> exists pos, in_grid st pos /\ grid_id st pos = i.
Proof.
  intros H. revert i. induction H as [|n st Hn H IH]; intros i Hi; [exists []; simpl in *; split; [constructor|lia]|]. cbn [grid_nb] in Hi. pose proof (Z.div_mod i n ltac:(lia)) as Hdm. pose proof (Z.mod_pos_bound i n Hn).
  destruct (IH (i / n)) as (pos & Hp & He). { split; [apply Z.div_pos; lia|apply Z.div_lt_upper_bound; nia]. } exists (i mod n :: pos). split; [constructor; [lia|done]|]. cbn [grid_id]. rewrite He. lia.
Qed.
Lemma transpose ngs conn rn rni : grid_ok ngs -> Build1GTNodalConnectivity ngs = Ok conn -> getReverseNodalConnectivity ngs = Ok (rn, rni) ->
  exists bs ps, conn = concat bs /\ Forall (fun b => zlen b = nb_corners ngs) bs /\ skyline ps rn rni /\ forall c n, (exists b, bs @ c = Some b /\ n ∈ b) <-> (exists p, ps @ n = Some p /\ c ∈ p).
Proof.
  intros Hok Hb Hr. destruct (build_spec ngs Hok) as (bs & Hb' & Hlb & Hbs). destruct (reverse_spec ngs Hok) as (rn' & rni' & ps & Hr' & Hsky & Hlp & Hps). rewrite Hb in Hb'. rewrite Hr in Hr'. injection Hb' as ->. injection Hr' as -> ->.
  assert (Forall (Z.lt 0) (cell_axes ngs)) as Hc0. { apply Forall_fmap, Forall_true. intros x. simpl. lia. }
  assert (Forall (Z.lt 0) ngs) as Hn0. { destruct Hok as [_ H]. eapply Forall_impl; [exact H|intros; simpl in *; lia]. }
  exists bs, ps. split; [done|]. split.
  - apply Forall_forall. intros b Hin. apply elem_of_zlook in Hin as (i & Hi). pose proof (zlook_Some_lt _ _ _ Hi). destruct (grid_id_onto (cell_axes ngs) i Hc0 ltac:(lia)) as (cp & Hg & <-). destruct (Hbs cp Hg) as (b' & Hb' & Hlen & _). rewrite Hi in Hb'. injection Hb' as ->. done.
  - split; [done|]. intros c n. split.
    + intros (b & Hc & Hin). pose proof (zlook_Some_lt _ _ _ Hc). destruct (grid_id_onto (cell_axes ngs) c Hc0 ltac:(lia)) as (cp & Hg & <-). destruct (Hbs cp Hg) as (b' & Hb' & _ & _ & Hm). rewrite Hc in Hb'. injection Hb' as <-. apply Hm in Hin as (pos & Hp & -> & Hco).
      destruct (Hps pos Hp) as (p & Hpp & _ & He). exists p. split; [done|]. apply He. exists cp. done.
    + intros (p & Hn & Hin). pose proof (zlook_Some_lt _ _ _ Hn). destruct (grid_id_onto ngs n Hn0 ltac:(lia)) as (pos & Hp & <-). destruct (Hps pos Hp) as (p' & Hpp & _ & He). rewrite Hn in Hpp. injection Hpp as <-. apply He in Hin as (cp & Hg & -> & Hco).
      destruct (Hbs cp Hg) as (b & Hb' & _ & _ & Hm). exists b. split; [done|]. apply Hm. exists pos. done.
Qed.
