(** Proofs for C62: edges, borders in 2D, polyhedra. *)
From Coq Require Import ZifyBool ZifyNat.
From Verif Require Import Base CellTable CellModel CellSpec CellProofs.
Local Open Scope Z_scope.

Definition littleSet (c : cm) : bool := cm_dyn c || negb (cm_dim c =? 3) || (cm_type c =? NORM_HEXA27) || bool_decide (is_Some (cm_little c)).
Lemma models_little : forallb littleSet models = true. Proof. vm_compute. done. Qed.

Lemma sons_canon c conn sons fs : c ∈ models -> cm_dyn c = false -> cm_dim c = 3 -> zlen conn = cm_nbpts c ->
  zlen sons = getNumberOfSons2 c conn -> (forall k s, sons @ k = Some s -> fillSon2 c k conn = Ok s) -> are_faces sons fs ->
  fs = (fun l : list edge => mapE (at_ conn) <$> l) <$> fsOf (cm_sons c).
Proof.
  intros Hc Hd H3 Hl Hn Hs HF. pose proof (forallb_elem _ _ _ models_static Hc) as H. unfold staticb in H. rewrite Hd, H3 in H. simpl in H.
  apply andb_true_iff in H as [H HL]. apply andb_true_iff in H as [H HC]. apply andb_true_iff in H as [HN HS].
  assert (E : sons = (fun s : Z * list Z => (s.1, at_ conn <$> s.2)) <$> cm_sons c).
  { apply zlook_ext. intros i. rewrite zlook_fmap. unfold getNumberOfSons2 in Hn. rewrite Hd in Hn. simpl in Hn. destruct (decide (0 <= i < zlen sons)) as [Hi|Hi].
    - destruct (zlook_lt sons i Hi) as [s Es]. rewrite Es. pose proof (Hs i s Es) as Hf. destruct (zlook_lt (cm_sons c) i ltac:(lia)) as [s0 E0]. rewrite E0. simpl. f_equal.
      unfold fillSon2, getSonType2, fillSon in Hf. rewrite Hd in Hf. simpl in Hf. rewrite (rd_ok _ _ _ E0) in Hf. simpl in Hf. rewrite reads_ok in Hf; [simpl in Hf; congruence|].
      pose proof (forallb_elem _ _ _ HS (zlook_elem _ _ _ E0)) as H. simpl in H. apply andb_true_iff in H as [H _]. apply Forall_forall. intros j Hj. pose proof (forallb_elem _ _ _ H Hj). unfold inb in *. lia.
    - rewrite (proj2 (zlook_None sons i)) by lia. rewrite (proj2 (zlook_None (cm_sons c) i)) by lia. done. }
  subst sons. unfold are_faces in HF. unfold fsOf. rewrite <- list_fmap_compose. clear - HF. revert fs HF. induction (cm_sons c) as [|s l IH]; intros fs HF; inversion HF; subst; [done|].
  simpl. f_equal; [|by apply IH]. destruct H1 as (m & Hm & _ & _ & ->). simpl in *. unfold quadOf. rewrite Hm. by rewrite edges2D_map.
Qed.

Lemma edgeOf_nodes s : zlen s = 2 \/ zlen s = 3 -> edge_nodes (edgeOf s) = s.
Proof. intros H. destruct s as [|a [|b [|m [|x s]]]]; try done; unfold zlen in H; simpl in H; lia. Qed.

Lemma little_ok c conn sons fs : c ∈ models -> cm_dyn c = false -> cm_dim c = 3 -> cm_type c <> NORM_HEXA27 -> zlen conn = cm_nbpts c -> NoDup conn ->
  zlen sons = getNumberOfSons2 c conn -> (forall k s, sons @ k = Some s -> fillSon2 c k conn = Ok s) -> are_faces sons fs ->
  exists es, getNumberOfEdgesIn3D c conn = Ok (zlen es) /\ getNumberOfEdges c = Ok (zlen es) /\
    (forall k e, es @ k = Some e -> fillSonEdges3D c k conn = Ok (if cm_quad c then NORM_SEG3 else NORM_SEG2, edge_nodes e)) /\
    NoDup es /\ (forall e, e ∈ es -> opp e ∉ es) /\ (forall e, e ∈ concat fs <-> e ∈ es \/ opp e ∈ es).
Proof.
  intros Hc Hd H3 H27 Hl Hnd Hn Hs HF. rewrite (sons_canon c conn sons fs Hc Hd H3 Hl Hn Hs HF). clear Hn Hs HF sons fs.
  pose proof (forallb_elem _ _ _ models_static Hc) as H. unfold staticb in H. rewrite Hd, H3 in H. simpl in H.
  apply andb_true_iff in H as [H HL]. apply andb_true_iff in H as [H HC]. apply andb_true_iff in H as [HN HS].
  pose proof (forallb_elem _ _ _ models_little Hc) as Hset. unfold littleSet in Hset. rewrite Hd, H3 in Hset. simpl in Hset. rewrite (proj2 (Z.eqb_neq _ _) H27) in Hset. simpl in Hset. apply bool_decide_eq_true in Hset as [ls Els].
  unfold littleb in HL. rewrite Els in HL. repeat (apply andb_true_iff in HL as [HL ?]). rename HL into Hls, H into Hcov, H0 into Hdir, H1 into Hnds. apply bool_decide_eq_true in Hnds.
  set (f := at_ conn). set (E := concat (fsOf (cm_sons c))) in *. set (es := edgeOf <$> ls) in *.
  assert (Hin : forall s, s ∈ ls -> (zlen s = if cm_quad c then 3 else 2) /\ Forall (fun i => 0 <= i < zlen conn) s).
  { intros s Hs. pose proof (forallb_elem _ _ _ Hls Hs) as H. simpl in H. apply andb_true_iff in H as [Ha Hb]. split; [lia|]. apply Forall_forall. intros i Hi. pose proof (forallb_elem _ _ _ Hb Hi). unfold inb in *. lia. }
  assert (HinE : forall e, e ∈ es -> edge_in (zlen conn) e).
  { intros e He. apply elem_of_list_fmap in He as (s & -> & Hs). destruct (Hin s Hs) as [H1 H2]. destruct s as [|a [|b m]]; [unfold zlen in H1; simpl in H1; destruct (cm_quad c); lia..|]. inversion H2 as [|? ? Ha H4]; subst. inversion H4; subst. unfold edge_in, edgeOf. simpl. split; [exact Ha|]. done. }
  assert (HinE' : forall e, edge_in (zlen conn) e -> edge_in (zlen conn) (opp e)).
  { intros e (H1 & H2 & H4). unfold edge_in, opp. simpl. split; [done|]. split; [done|]. by apply Forall_rev. }
  assert (HO : forall e, e ∈ es -> opp e ∉ es /\ e ∈ E).
  { intros e He. pose proof (forallb_elem _ _ _ Hdir He) as H. simpl in H. apply andb_true_iff in H as [Ha Hb]. apply negb_true_iff, bool_decide_eq_false in Ha. apply bool_decide_eq_true in Hb. done. }
  assert (HCl : forall e, e ∈ E -> opp e ∈ E).
  { intros e He. unfold closedb in HC. apply andb_true_iff in HC as [_ HC]. pose proof (forallb_elem _ _ _ HC He) as H. simpl in H. apply andb_true_iff in H as [Ha _]. by apply bool_decide_eq_true in Ha. }
  exists (mapE f <$> es). repeat split.
  - unfold getNumberOfEdgesIn3D. rewrite Hd, Els. simpl. unfold es. by rewrite !zlen_fmap.
  - unfold getNumberOfEdges. rewrite Hd, H3, Els. simpl. unfold es. by rewrite !zlen_fmap.
  - intros k e Hk. unfold es in Hk. rewrite !zlook_fmap in Hk. destruct (ls @ k) as [s|] eqn:Es; [|done]. simpl in Hk. injection Hk as <-.
    unfold fillSonEdges3D. rewrite Hd, Els. rewrite (rd_ok _ _ _ Es). simpl. destruct (Hin s (zlook_elem _ _ _ Es)) as [H1 H2]. destruct (cm_quad c); simpl.
    + destruct s as [|a [|b [|m [|x s]]]]; try (unfold zlen in H1; simpl in H1; lia). inversion H2 as [|? ? Ha H4]; subst. inversion H4 as [|? ? Hb H5]; subst. inversion H5; subst.
      unfold rd at 1 2 3. simpl. rewrite !rd_at by done. done.
    + destruct s as [|a [|b [|m s]]]; try (unfold zlen in H1; simpl in H1; lia). inversion H2 as [|? ? Ha H4]; subst. inversion H4 as [|? ? Hb H5]; subst.
      unfold rd at 1 2. simpl. rewrite !rd_at by done. done.
  - apply NoDup_fmap_2_strong; [|done]. intros x y Hx Hy. apply mapE_inj; auto.
  - intros e He Hoe. apply elem_of_list_fmap in He as (x & -> & Hx). rewrite opp_map in Hoe. apply elem_of_list_fmap in Hoe as (y & Hy1 & Hy2).
    apply mapE_inj in Hy1; auto. subst y. destruct (HO x Hx) as [H1 _]. done.
  - intros He. assert (He' : e ∈ mapE f <$> E) by (unfold E; change (mapE f <$> concat (fsOf (cm_sons c))) with (map (mapE f) (concat (fsOf (cm_sons c)))); rewrite concat_map; exact He).
    apply elem_of_list_fmap in He' as (x & -> & Hx). pose proof (forallb_elem _ _ _ Hcov Hx) as H. simpl in H. apply orb_true_iff in H as [H|H]; apply bool_decide_eq_true in H.
    + left. by apply elem_of_list_fmap_1.
    + right. rewrite opp_map. by apply elem_of_list_fmap_1.
  - intros He. assert (W : e ∈ mapE f <$> E).
    { destruct He as [He|He]; apply elem_of_list_fmap in He as (x & Hx1 & Hx2).
      - subst e. apply elem_of_list_fmap_1. by apply HO.
      - assert (e = mapE f (opp x)) as -> by (rewrite <- opp_map, <- Hx1; by rewrite opp_opp). apply elem_of_list_fmap_1, HCl. by apply HO. }
    unfold E in W. change (mapE f <$> concat (fsOf (cm_sons c))) with (map (mapE f) (concat (fsOf (cm_sons c)))) in W. rewrite concat_map in W. exact W.
Qed.
