(** Proofs for C62: borders in 2D, micro edges, polyhedra. *)
From Coq Require Import ZifyBool ZifyNat.
From Verif Require Import Base CellTable CellModel CellSpec CellProofs CellProofs2.
Local Open Scope Z_scope.

(** ** Borders in 2D *)
Lemma rot_look l k : 0 <= k < zlen l -> rot l @ k = l @ ((k + 1) mod zlen l).
Proof.
  intros Hk. destruct l as [|x l]; [unfold zlen in Hk; simpl in Hk; lia|]. change (rot (x :: l)) with (l ++ [x]). rewrite zlen_cons in *. destruct (decide (k = zlen l)) as [->|Hne].
  - replace (zlen l + 1) with (1 + zlen l) by lia. rewrite Z_mod_same_full. rewrite zlook_app_r by lia. by rewrite Z.sub_diag.
  - rewrite Z.mod_small by lia. rewrite zlook_app_l by lia. rewrite zlook_cons. destruct (k + 1 =? 0) eqn:E; [lia|]. f_equal. lia.
Qed.
Lemma rot_length l : length (rot l) = length l.
Proof. unfold rot. rewrite app_length, drop_length, take_length. lia. Qed.
Lemma zlook_zip {A B} (l : list A) (k : list B) i p : zip l k @ i = Some p <-> l @ i = Some p.1 /\ k @ i = Some p.2.
Proof.
  unfold zlook. destruct (i <? 0); [split; [done|intros [? _]; done]|]. rewrite lookup_zip_with. destruct (l !! _) as [a|], (k !! _) as [b|]; simpl; split; intros H; try done; try (destruct H; done).
  - injection H as <-. done.
  - destruct p, H as [[= ->] [= ->]]. done.
Qed.
Lemma ring_look l k e : ring l @ k = Some e -> 0 <= k < zlen l /\ l @ k = Some e.1.1 /\ l @ ((k + 1) mod zlen l) = Some e.1.2 /\ e.2 = [].
Proof.
  unfold ring. rewrite zlook_fmap. destruct (zip l (rot l) @ k) as [p|] eqn:E; [|done]. simpl. intros [= <-]. apply zlook_zip in E as [E1 E2]. pose proof (zlook_Some_lt _ _ _ E1).
  rewrite rot_look in E2 by done. done.
Qed.
Lemma ring_zlen l : zlen (ring l) = zlen l.
Proof. unfold ring. rewrite zlen_fmap. unfold zlen. rewrite zip_with_length, rot_length. lia. Qed.
Lemma half_nat l : Z.of_nat (Nat.div2 (length l)) = @zlen Z l / 2.
Proof. unfold zlen. rewrite Nat.div2_div, Nat2Z.inj_div. done. Qed.
Lemma ring2_look l k e : ring2 l @ k = Some e -> let h := zlen l / 2 in 0 <= k < h /\ l @ k = Some e.1.1 /\ l @ ((k + 1) mod h) = Some e.1.2 /\ exists m, e.2 = [m] /\ l @ (k + h) = Some m.
Proof.
  unfold ring2. rewrite zlook_fmap. set (h := Nat.div2 (length l)). destruct (zip _ _ @ k) as [p|] eqn:E; [|done]. simpl. intros [= <-]. apply zlook_zip in E as [E1 E2]. apply zlook_zip in E1 as [E0 E1]. simpl.
  pose proof (zlook_Some_lt _ _ _ E0) as Hk. rewrite rot_look in E1 by done. assert (Hh : zlen (take h l) = zlen l / 2).
  { rewrite <- half_nat. fold h. unfold zlen. rewrite take_length. pose proof (Nat.div2_decr (length l) (length l)). lia. }
  rewrite Hh in *. rewrite <- half_nat in *. fold h in Hk, E1, Hh |- *. split; [done|]. assert (0 <= (k + 1) mod Z.of_nat h < Z.of_nat h) by (apply Z.mod_pos_bound; lia). rewrite zlook_take in E0, E1 by lia.
  split; [done|]. split; [done|]. eexists. split; [done|]. rewrite zlook_drop in E2 by lia. rewrite <- E2. f_equal. lia.
Qed.
Lemma ring2_zlen l : zlen (ring2 l) = zlen l / 2.
Proof.
  unfold ring2. rewrite zlen_fmap, <- half_nat. unfold zlen. rewrite !zip_with_length, rot_length, take_length, drop_length. pose proof (Nat.div2_decr (length l) (length l)).
  pose proof (Nat.div2_odd (length l)). lia.
Qed.

Definition borderb (c : cm) : bool := if cm_dyn c || negb (cm_dim c =? 2) then true else
  bool_decide (cm_nbsons c = zlen (cm_sons c)) && bool_decide (cm_sons c = (fun e => (if cm_quad c then NORM_SEG3 else NORM_SEG2, edge_nodes e)) <$> edges2D (cm_quad c) (seqZ 0 (cm_nbpts c))).
Lemma models_border : forallb borderb models = true. Proof. vm_compute. reflexivity. Qed.
Definition dyn2b (c : cm) : bool := if cm_dyn c && (cm_dim c =? 2) then Bool.eqb (cm_quad c) (negb (cm_type c =? NORM_POLYGON)) else true.
Lemma models_dyn2 : forallb dyn2b models = true. Proof. vm_compute. done. Qed.

Lemma edge_nodes_map f e : edge_nodes (mapE f e) = f <$> edge_nodes e. Proof. done. Qed.
Lemma edge_nodes_in n e : edge_in n e -> Forall (fun i => 0 <= i < n) (edge_nodes e).
Proof. intros (H1 & H2 & H3). unfold edge_nodes. apply Forall_app; split; [|exact H3]. apply Forall_cons; split; [exact H1|]. apply Forall_cons; split; [exact H2|constructor]. Qed.

Lemma border_ok c conn : c ∈ models -> cm_dim c = 2 -> (cm_dyn c = false -> zlen conn = cm_nbpts c) ->
  getNumberOfSons2 c conn = zlen (edges2D (cm_quad c) conn) /\
  forall k e, edges2D (cm_quad c) conn @ k = Some e -> fillSon2 c k conn = Ok (if cm_quad c then NORM_SEG3 else NORM_SEG2, edge_nodes e).
Proof.
  intros Hc H2 Hl. destruct (cm_dyn c) eqn:Hd.
  - pose proof (forallb_elem _ _ _ models_dyn2 Hc) as H. unfold dyn2b in H. rewrite Hd, H2 in H. simpl in H. apply eqb_prop in H. unfold getNumberOfSons2, fillSon2, getSonType2. rewrite Hd, H2, H. simpl.
    destruct (cm_type c =? NORM_POLYGON) eqn:Et; simpl.
    + rewrite ring_zlen. split; [done|]. intros k e He. apply ring_look in He as (Hk & E1 & E2 & E3). rewrite (rd_ok _ _ _ E1). simpl. unfold ubif. destruct (zlen conn =? 0) eqn:E; [lia|]. rewrite (rd_ok _ _ _ E2). simpl.
      unfold edge_nodes. by rewrite E3.
    + rewrite ring2_zlen. split; [done|]. intros k e He. apply ring2_look in He as (Hk & E1 & E2 & m & E3 & E4). rewrite (rd_ok _ _ _ E1). simpl. unfold ubif. destruct (zlen conn / 2 =? 0) eqn:E; [lia|]. rewrite (rd_ok _ _ _ E2). simpl.
      rewrite (rd_ok _ _ _ E4). simpl. unfold edge_nodes. by rewrite E3.
  - specialize (Hl eq_refl). pose proof (forallb_elem _ _ _ models_border Hc) as H. unfold borderb in H. rewrite Hd, H2 in H. simpl in H. apply andb_true_iff in H as [Hn Hs]. apply bool_decide_eq_true in Hn, Hs.
    assert (Ee : edges2D (cm_quad c) conn = mapE (at_ conn) <$> edges2D (cm_quad c) (seqZ 0 (cm_nbpts c))) by (rewrite <- edges2D_map, <- Hl, <- at_seq; done).
    rewrite Ee, zlen_fmap. unfold getNumberOfSons2. rewrite Hd. simpl. split; [rewrite Hn, Hs; by rewrite zlen_fmap|].
    intros k e He. rewrite zlook_fmap in He. destruct (edges2D _ _ @ k) as [e0|] eqn:E; [|done]. simpl in He. injection He as <-.
    assert (Es : cm_sons c @ k = Some (if cm_quad c then NORM_SEG3 else NORM_SEG2, edge_nodes e0)) by (rewrite Hs, zlook_fmap, E; done).
    unfold fillSon2, getSonType2, fillSon. rewrite Hd. simpl. rewrite (rd_ok _ _ _ Es). simpl. rewrite reads_ok; [by rewrite edge_nodes_map|].
    apply edge_nodes_in. pose proof (edges2D_in (cm_quad c) (seqZ 0 (cm_nbpts c)) (zlen conn)) as W. refine (proj1 (Forall_forall _ _) (W _) _ _); [|by eapply zlook_elem].
    apply Forall_forall. intros i Hi%elem_of_seqZ. lia.
Qed.

(** ** Micro edges *)
Ltac lit := repeat (cbn [bind]; match goal with |- context [rd (?a :: ?l) ?k] => let v := eval vm_compute in (rd (a :: l) k) in change (rd (a :: l) k) with v end); cbn [bind].
Definition microb (c : cm) : bool := if cm_dyn c then true else
  if cm_dim c =? 2 then (if cm_quad c then forallb (fun s => zlen s.2 =? 3) (cm_sons c) else true) else true.
Lemma models_micro : forallb microb models = true. Proof. vm_compute. done. Qed.
Lemma micro_ok c conn k t l : c ∈ models -> cm_dyn c = false -> (cm_dim c = 2 /\ fillSon2 c k conn = Ok (t, l)) \/ (cm_dim c = 3 /\ fillSonEdges3D c k conn = Ok (t, l)) ->
  if cm_quad c then exists a b m, l = [a; b; m] /\ fillMicroEdge c (2 * k) conn = Ok (NORM_SEG2, [a; m]) /\ fillMicroEdge c (2 * k + 1) conn = Ok (NORM_SEG2, [m; b])
  else fillMicroEdge c k conn = Ok (t, l).
Proof.
  intros Hc Hd H. destruct (cm_quad c) eqn:Hq.
  - assert (E1 : 2 * k / 2 = k) by (rewrite Z.mul_comm; apply Z.div_mul; lia). assert (E2 : 2 * k mod 2 = 0) by (rewrite Z.mul_comm; apply Z_mod_mult).
    assert (E3 : (2 * k + 1) / 2 = k) by (rewrite Z.mul_comm, Z.div_add_l by lia; simpl; lia). assert (E4 : (2 * k + 1) mod 2 = 1) by (rewrite Z.mul_comm, Z.add_comm, Z_mod_plus_full; done).
    unfold fillMicroEdge. rewrite Hq, E1, E2, E3, E4. destruct H as [[H2 H]|[H3 H]].
    + rewrite H2. simpl. unfold fillSon2, getSonType2, fillSon in H. rewrite Hd in H. simpl in H. destruct (rd (cm_sons c) k) as [s| | |] eqn:Es; try done. simpl in *.
      pose proof (forallb_elem _ _ _ models_micro Hc) as Hm. unfold microb in Hm. rewrite Hd, H2, Hq in Hm. simpl in Hm. assert (Hs : s ∈ cm_sons c) by (apply rd_inv in Es; by eapply zlook_elem).
      pose proof (forallb_elem _ _ _ Hm Hs) as H3. simpl in H3. destruct s as [st s]. simpl in *. destruct s as [|i [|j [|x [|y s]]]]; try (exfalso; rewrite ?zlen_cons, ?zlen_nil in H3; try pose proof (zlen_nonneg s); lia).
      unfold reads in H. simpl in H. destruct (rd conn i) as [a| | |] eqn:Ea; try done. simpl in H. destruct (rd conn j) as [b| | |] eqn:Eb; try done. simpl in H. destruct (rd conn x) as [m| | |] eqn:Em; try done. simpl in H.
      injection H as <- <-. exists a, b, m. lit. rewrite Ea, Eb, Em. done.
    + rewrite H3. change (3 =? 2) with false. change (3 =? 3) with true. cbv iota. unfold fillSonEdges3D in H. rewrite Hd, Hq in H. cbn [negb] in H. destruct (cm_little c) as [ls|]; [|done]. destruct (rd ls k) as [s| | |] eqn:Es; try done. cbn [bind] in H |- *.
      destruct (rd s 0) as [i| | |]; try done. cbn [bind] in H |- *. destruct (rd s 1) as [j| | |]; try done. cbn [bind] in H |- *. destruct (rd s 2) as [x| | |]; try done. cbn [bind] in H |- *.
      destruct (rd conn i) as [a| | |] eqn:Ea; try done. cbn [bind] in H. destruct (rd conn j) as [b| | |] eqn:Eb; try done. cbn [bind] in H. destruct (rd conn x) as [m| | |] eqn:Em; try done. cbn [bind] in H. injection H as <- <-. exists a, b, m. lit. rewrite Ea, Eb, Em. done.
  - unfold fillMicroEdge. rewrite Hq, Hd. destruct H as [[H2 H]|[H3 H]]; [rewrite H2|rewrite H3]; done.
Qed.

(** ** Polyhedra *)
Lemma find1_app f r : -1 ∉ f -> find1 (f ++ -1 :: r) = zlen f.
Proof. induction f as [|x f IH]; intros H; [done|]. apply not_elem_of_cons in H as [H1 H2]. simpl. destruct (x =? -1) eqn:E; [lia|]. rewrite IH by done. rewrite zlen_cons. lia. Qed.
Lemma find1_all f : -1 ∉ f -> find1 f = zlen f.
Proof. induction f as [|x f IH]; intros H; [done|]. apply not_elem_of_cons in H as [H1 H2]. simpl. destruct (x =? -1) eqn:E; [lia|]. rewrite IH by done. rewrite zlen_cons. lia. Qed.
Lemma find1_face f r : -1 ∉ f -> find1 (polyhedron (f :: r)) = zlen f.
Proof. intros H. destruct r; simpl; [by apply find1_all|by apply find1_app]. Qed.
Lemma face_prefix f r : exists t, polyhedron (f :: r) = f ++ t.
Proof. destruct r as [|g r]; [exists []; simpl; by rewrite app_nil_r|]. by eexists. Qed.

Lemma findSep_ok conn w f r : 0 <= w <= zlen conn -> drop (Z.to_nat w) conn = polyhedron (f :: r) -> -1 ∉ f -> findSep conn w = Ok (w + zlen f).
Proof. intros Hw Hd Hf. unfold findSep, ubif. destruct ((w <? 0) || (zlen conn <? w)) eqn:Eb; [lia|]. by rewrite Hd, find1_face. Qed.

Section Poly.
Context (faces : list (list Z)).
Hypothesis Hne : faces <> [].
Hypothesis Hsep : forall f, f ∈ faces -> -1 ∉ f.

Lemma faceStart_ok k : 0 <= k < zlen faces -> exists w, faceStart (polyhedron faces) k = Ok w /\ 0 <= w <= zlen (polyhedron faces) /\ drop (Z.to_nat w) (polyhedron faces) = polyhedron (drop (Z.to_nat k) faces).
Proof.
  intros Hk. assert (Hk0 : 0 <= k) by lia. revert Hk. pattern k. apply natlike_ind; [| |done].
  - intros _. exists 0. split; [done|]. split; [unfold zlen; lia|]. done.
  - intros j Hj IH Hsj. destruct IH as (w & E & Hw & Hd); [lia|]. destruct (zlook_lt faces j ltac:(lia)) as [f Ef]. destruct (zlook_lt faces (j + 1) ltac:(lia)) as [g Eg].
    assert (Ed : drop (Z.to_nat j) faces = f :: g :: drop (Z.to_nat (j + 2)) faces).
    { unfold zlook in Ef, Eg. destruct (j <? 0) eqn:?; [lia|]. destruct (j + 1 <? 0) eqn:?; [lia|]. rewrite (drop_S _ _ _ Ef). f_equal. replace (S (Z.to_nat j)) with (Z.to_nat (j + 1)) by lia. rewrite (drop_S _ _ _ Eg). f_equal. f_equal. lia. }
    assert (Hf : -1 ∉ f) by (apply Hsep; by eapply zlook_elem).
    exists (w + zlen f + 1). unfold faceStart in *. unfold forZ in *. rewrite Z.sub_0_r in *. rewrite <- Z.add_1_r in *. rewrite seqZ_app by lia. rewrite foldM_app. rewrite E. cbn [bind]. rewrite seqZ_cons by lia. cbn [foldM].
    unfold findSep. unfold ubif. destruct ((w <? 0) || (zlen (polyhedron faces) <? w)) eqn:Eb; [lia|]. simpl. rewrite Hd, Ed, find1_face by done. split; [done|].
    assert (Hlen : zlen (polyhedron faces) = w + zlen (drop (Z.to_nat w) (polyhedron faces))) by (unfold zlen in *; rewrite drop_length; lia).
    rewrite Hd, Ed in Hlen. change (polyhedron (f :: g :: drop (Z.to_nat (j + 2)) faces)) with (f ++ -1 :: polyhedron (g :: drop (Z.to_nat (j + 2)) faces)) in *. rewrite zlen_app, zlen_cons in Hlen.
    pose proof (zlen_nonneg f). pose proof (zlen_nonneg (polyhedron (g :: drop (Z.to_nat (j + 2)) faces))). split; [lia|].
    replace (Z.to_nat (w + zlen f + 1)) with (Z.to_nat w + (length f + 1))%nat by (unfold zlen; lia). rewrite <- drop_drop, Hd, Ed.
    change (polyhedron (f :: g :: drop (Z.to_nat (j + 2)) faces)) with (f ++ -1 :: polyhedron (g :: drop (Z.to_nat (j + 2)) faces)). rewrite <- drop_drop, drop_app.
    unfold zlook in Eg. destruct (j + 1 <? 0) eqn:?; [lia|]. rewrite (drop_S _ _ _ Eg). replace (S (Z.to_nat (j + 1))) with (Z.to_nat (j + 2)) by lia. done.
Qed.

Lemma polyhedron_ok c : c = cm_POLYHED -> getNumberOfSons2 c (polyhedron faces) = zlen faces /\
  forall k f, faces @ k = Some f -> fillSon2 c k (polyhedron faces) = Ok (NORM_POLYGON, f) /\ getNumberOfNodesConstituentTheSon2 c k (polyhedron faces) = Ok (zlen f).
Proof.
  intros ->. split.
  - unfold getNumberOfSons2. simpl. clear -Hne Hsep. assert (E0 : forall f, -1 ∉ f -> zlen (filter (fun x => x = -1) f) = 0).
    { induction f as [|x f IH]; intros H; [done|]. apply not_elem_of_cons in H as [H1 H2]. rewrite filter_cons_False by done. by apply IH. }
    revert Hne Hsep. induction faces as [|f l IH]; intros H1 H2; [done|]. destruct l as [|g l].
    + simpl. rewrite E0 by (apply H2; by left). done.
    + change (polyhedron (f :: g :: l)) with (f ++ -1 :: polyhedron (g :: l)). rewrite filter_app, zlen_app, filter_cons_True, zlen_cons by done. rewrite E0 by (apply H2; by left). rewrite (zlen_cons f).
      rewrite <- IH; [lia|done|]. intros h Hh. apply H2. by right.
  - intros k f Hk. pose proof (zlook_Some_lt _ _ _ Hk) as Hr. destruct (faceStart_ok k Hr) as (w & E & Hw & Hd). assert (Hf : -1 ∉ f) by (apply Hsep; by eapply zlook_elem).
    assert (Ed : drop (Z.to_nat k) faces = f :: drop (Z.to_nat (k + 1)) faces).
    { unfold zlook in Hk. destruct (k <? 0) eqn:?; [lia|]. rewrite (drop_S _ _ _ Hk). f_equal. f_equal. lia. }
    unfold fillSon2, getNumberOfNodesConstituentTheSon2. simpl. rewrite E. simpl. unfold findSep, ubif. destruct ((w <? 0) || (zlen (polyhedron faces) <? w)) eqn:Eb; [lia|]. simpl. rewrite Hd, Ed, find1_face by done.
    replace (w + zlen f - w) with (zlen f) by lia. split; [|done]. do 2 f_equal. destruct (face_prefix f (drop (Z.to_nat (k + 1)) faces)) as [t ->]. unfold zlen. rewrite Nat2Z.id. by rewrite take_app.
Qed.

(** Edges of a polyhedron. *)
Definition pairs (f : list Z) : list (Z * Z) := zip f (rot f).
Lemma faceLoop (conn : list Z) (w : Z) f ret : 0 <= w -> (forall i, 0 <= i < zlen f -> conn @ (w + i) = f @ i) ->
  forZ 0 (zlen f) (fun i ret => let* a := rd conn (w + i) in let* b := rd conn (w + (i + 1) mod zlen f) in Ok (insertPair ret (a, b))) ret = Ok (foldl insertPair ret (pairs f)).
Proof.
  intros Hw Hc. assert (G : forall m, 0 <= m <= zlen f -> forZ 0 m (fun i ret => let* a := rd conn (w + i) in let* b := rd conn (w + (i + 1) mod zlen f) in Ok (insertPair ret (a, b))) ret = Ok (foldl insertPair ret (take (Z.to_nat m) (pairs f)))).
  { intros m Hm. assert (Hm0 : 0 <= m) by lia. revert Hm. pattern m. apply natlike_ind; [done| |done]. intros j Hj IH Hsj. unfold forZ in *. rewrite Z.sub_0_r in *. rewrite <- Z.add_1_r in *. rewrite seqZ_app by lia. rewrite foldM_app, IH by lia. cbn [bind]. rewrite seqZ_cons by lia. cbn [foldM].
    rewrite Z.add_0_l. assert (0 <= (j + 1) mod zlen f < zlen f) by (apply Z.mod_pos_bound; lia). destruct (zlook_lt f j ltac:(lia)) as [a Ea]. destruct (zlook_lt f ((j + 1) mod zlen f) ltac:(lia)) as [b Eb].
    rewrite (rd_ok _ _ a) by (rewrite Hc by lia; done). cbn [bind]. rewrite (rd_ok _ _ b) by (rewrite Hc by lia; done). cbn [bind].
    assert (Ep : pairs f @ j = Some (a, b)) by (apply zlook_zip; simpl; split; [done|]; rewrite rot_look by lia; done).
    unfold zlook in Ep. destruct (j <? 0) eqn:?; [lia|]. replace (Z.to_nat (j + 1)) with (S (Z.to_nat j)) by lia. rewrite (take_S_r _ _ _ Ep), foldl_app. done. }
  rewrite G by (pose proof (zlen_nonneg f); lia). rewrite take_ge; [done|]. unfold pairs. rewrite zip_with_length, rot_length. unfold zlen. lia.
Qed.

Lemma edgesLoop conn : forall rest fuel work ret, (forall f, f ∈ rest -> -1 ∉ f) -> 0 <= work <= zlen conn -> drop (Z.to_nat work) conn = polyhedron rest -> (length (drop (Z.to_nat work) conn) < fuel)%nat ->
  exists w, whileM fuel (fun st => Ok (negb (st.1 =? zlen conn))) (fun '(work, ret) =>
    let* e := findSep conn work in
    let n := e - work in
    let* ret := forZ 0 n (fun i ret => let* a := rd conn (work + i) in let* b := rd conn (work + (i + 1) mod n) in Ok (insertPair ret (a, b))) ret in
    Ok ((if e =? zlen conn then e else e + 1), ret)) (work, ret) = Ok (w, foldl insertPair ret (concat (pairs <$> rest))).
Proof.
  induction rest as [|f rest IH]; intros fuel work ret Hs Hw Hd Hfuel; (destruct fuel as [|fuel]; [lia|]); cbn [whileM bind fst].
  - exists work. simpl in Hd. assert (work = zlen conn) as ->; [|by rewrite Z.eqb_refl]. assert (length (drop (Z.to_nat work) conn) = 0%nat) by (by rewrite Hd). rewrite drop_length in H. unfold zlen in *. lia.
  - destruct (decide (work = zlen conn)) as [->|Hlt].
    + rewrite Z.eqb_refl. cbn [negb]. exists (zlen conn). f_equal. f_equal.
      assert (E : polyhedron (f :: rest) = []) by (rewrite <- Hd; unfold zlen; rewrite Nat2Z.id; by apply drop_all).
      destruct rest as [|g rest]; [|simpl in E; destruct f; done]. simpl in E. subst f. done.
    + destruct (work =? zlen conn) eqn:?; [lia|]. cbn [negb]. assert (Hf : -1 ∉ f) by (apply Hs; by left).
      rewrite (findSep_ok conn work f rest) by done. cbn [bind].
      replace (work + zlen f - work) with (zlen f) by lia. destruct (face_prefix f rest) as [t Et].
      rewrite faceLoop; [|lia|]. 2: { intros i Hi. replace (work + i) with (Z.of_nat (Z.to_nat work) + i) by lia. rewrite <- zlook_drop by lia. rewrite Hd, Et. by rewrite zlook_app_l by lia. }
      cbn [bind]. assert (Hlen : zlen conn = work + zlen (polyhedron (f :: rest))) by (rewrite <- Hd; unfold zlen in *; rewrite drop_length; lia).
      destruct rest as [|g rest].
      * simpl in Hlen. destruct (work + zlen f =? zlen conn) eqn:?; [|lia]. destruct fuel as [|fuel]; [rewrite drop_length in Hfuel; unfold zlen in *; lia|]. cbn [whileM bind fst]. rewrite Heqb0. cbn [negb]. eexists. simpl. rewrite app_nil_r. done.
      * change (polyhedron (f :: g :: rest)) with (f ++ -1 :: polyhedron (g :: rest)) in *. rewrite zlen_app, zlen_cons in Hlen. pose proof (zlen_nonneg (polyhedron (g :: rest))). pose proof (zlen_nonneg f). destruct (work + zlen f =? zlen conn) eqn:?; [lia|].
        destruct (IH fuel (work + zlen f + 1) (foldl insertPair ret (pairs f))) as [w E].
        -- intros h Hh. apply Hs. by right.
        -- lia.
        -- replace (Z.to_nat (work + zlen f + 1)) with (Z.to_nat work + (length f + 1))%nat by (unfold zlen; lia). rewrite <- drop_drop, Hd. rewrite <- drop_drop, drop_app. done.
        -- rewrite drop_length in *. unfold zlen in *. lia.
        -- exists w. etransitivity; [exact E|]. change (concat (pairs <$> f :: g :: rest)) with (pairs f ++ concat (pairs <$> g :: rest)). by rewrite foldl_app.
Qed.
End Poly.

Lemma samePair_spec p q : samePair p q = true <-> same_pair p q.
Proof. destruct p as [a b], q as [x y]. unfold samePair, same_pair. simpl. split; [intros H; assert ((a = x /\ b = y) \/ (a = y /\ b = x)) as [[-> ->]|[-> ->]] by lia; auto|]. intros [[= -> ->]|[= -> ->]]; lia. Qed.
Lemma same_pair_sym p q : same_pair p q -> same_pair q p. Proof. rewrite <- !samePair_spec. unfold samePair. lia. Qed.
Lemma same_pair_trans p q r : same_pair p q -> same_pair q r -> same_pair p r. Proof. rewrite <- !samePair_spec. unfold samePair. lia. Qed.
Lemma insert_distinct es p : distinct_pairs es -> distinct_pairs (insertPair es p) /\ (forall r, (exists q, q ∈ insertPair es p /\ same_pair r q) <-> (exists q, q ∈ es /\ same_pair r q) \/ same_pair r p).
Proof.
  intros Hd. unfold insertPair. destruct (existsb (samePair p) es) eqn:E.
  - split; [done|]. intros r. split; [by left|]. intros [H|H]; [done|]. apply existsb_exists in E as (q & Hq & Hp). exists q. split; [by apply elem_of_list_In|]. apply samePair_spec in Hp. by eapply same_pair_trans.
  - assert (Hn : forall q, q ∈ es -> ~ same_pair p q).
    { intros q Hq Hpq. apply samePair_spec in Hpq. assert (existsb (samePair p) es = true) by (apply existsb_exists; exists q; split; [by apply elem_of_list_In|done]). congruence. }
    split.
    + intros i j x y Hi Hj Hxy. pose proof (zlook_Some_lt _ _ _ Hi) as Bi. pose proof (zlook_Some_lt _ _ _ Hj) as Bj. rewrite zlen_app in Bi, Bj. change (zlen [p]) with 1 in Bi, Bj. destruct (decide (i = zlen es)) as [->|Hi'], (decide (j = zlen es)) as [->|Hj']; [done| | |].
      * rewrite zlook_snoc in Hi. rewrite zlook_app_l in Hj by lia. injection Hi as <-. exfalso. eapply Hn; [|exact Hxy]. by eapply zlook_elem.
      * rewrite zlook_snoc in Hj. rewrite zlook_app_l in Hi by lia. injection Hj as <-. exfalso. eapply Hn; [|apply same_pair_sym, Hxy]. by eapply zlook_elem.
      * rewrite zlook_app_l in Hi, Hj by lia. by eapply Hd.
    + intros r. split.
      * intros (q & Hq & Hr). apply elem_of_app in Hq as [Hq|Hq]; [left; eauto|]. apply elem_of_list_singleton in Hq as ->. by right.
      * intros [(q & Hq & Hr)|H]; [exists q; split; [apply elem_of_app; by left|done]|]. exists p. split; [apply elem_of_app; right; by left|done].
Qed.
Lemma insert_all ps : forall es, distinct_pairs es -> distinct_pairs (foldl insertPair es ps) /\ (forall r, (exists q, q ∈ foldl insertPair es ps /\ same_pair r q) <-> (exists q, q ∈ es /\ same_pair r q) \/ exists q, q ∈ ps /\ same_pair r q).
Proof.
  induction ps as [|p ps IH]; intros es Hd; simpl.
  - split; [done|]. intros r. split; [by left|]. intros [H|(q & Hq & _)]; [done|]. by apply elem_of_nil in Hq.
  - destruct (insert_distinct es p Hd) as [Hd' Hm]. destruct (IH _ Hd') as [H1 H2]. split; [done|]. intros r. rewrite H2, Hm. split.
    + intros [[H|H]|(q & Hq & H)]; [by left| |]; right; [exists p; split; [by left|done]|exists q; split; [by right|done]].
    + intros [H|(q & Hq & H)]; [by left; left|]. apply elem_of_cons in Hq as [->|Hq]; [by left; right|]. right. eauto.
Qed.
Lemma polyhedron_edges faces : faces <> [] -> (forall f, f ∈ faces -> -1 ∉ f) ->
  exists es, computeAllEdgesForPolyhedron cm_POLYHED (polyhedron faces) = Ok (concat ((fun p => [p.1; p.2]) <$> es)) /\ getNumberOfEdgesIn3D cm_POLYHED (polyhedron faces) = Ok (zlen es) /\
    distinct_pairs es /\ forall p, (exists q, q ∈ es /\ same_pair p q) <-> exists f e, f ∈ faces /\ e ∈ ring f /\ same_pair p e.1.
Proof.
  intros Hne Hs. set (es := foldl insertPair [] (concat (pairs <$> faces))).
  assert (E : edgesOfPolyhedron (polyhedron faces) = Ok es).
  { destruct (edgesLoop faces Hs (polyhedron faces) faces (S (length (polyhedron faces))) 0 [] Hs) as [w W]; [pose proof (zlen_nonneg (polyhedron faces)); lia|done|rewrite drop_length; lia|]. unfold edgesOfPolyhedron. cbv zeta in W |- *. rewrite W. done. }
  destruct (insert_all (concat (pairs <$> faces)) []) as [H1 H2]; [intros i j p q Hi; rewrite zlook_nil in Hi; done|]. fold es in H1, H2.
  exists es. unfold computeAllEdgesForPolyhedron, getNumberOfEdgesIn3D. simpl. rewrite E. split; [done|]. split; [done|]. split; [done|]. intros p. rewrite H2. split.
  - intros [(q & Hq & _)|(q & Hq & Hp)]; [by apply elem_of_nil in Hq|]. apply elem_of_list_In, in_concat in Hq as (l & Hl & Hq). apply elem_of_list_In, elem_of_list_fmap in Hl as (f & -> & Hf). exists f, (q, []). split; [done|]. split; [|done].
    apply elem_of_list_fmap. exists q. split; [by destruct q|]. by apply elem_of_list_In.
  - intros (f & e & Hf & He & Hp). right. apply elem_of_list_fmap in He as (q & -> & Hq). exists q. split; [|by destruct q]. apply elem_of_list_In, in_concat. exists (pairs f). split; [apply elem_of_list_In; by apply elem_of_list_fmap_1|]. by apply elem_of_list_In.
Qed.
