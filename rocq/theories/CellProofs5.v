(** Proofs for C62: extrusion. *)
From Coq Require Import ZifyBool ZifyNat.
From Verif Require Import Base CellTable CellModel CellSpec CellProofs CellProofs2 CellProofs3 CellProofs4.
Local Open Scope Z_scope.

Definition extb (c : cm) : bool := if cm_dyn c || negb (cm_dim c =? 2) then true else
  match GetCellModel (cm_ext c) with
  | Ok e => negb (cm_dyn e) && (cm_dim e =? 3) && (zlen (cm_extrude c) =? cm_nbpts e) && (cm_nbpts c <? 30) && forallb (fun v => inb (cm_nbpts c) (v mod 30)) (cm_extrude c) && forallb (fun v => (0 <=? v) && (v / 30 <=? layers c)) (cm_extrude c) &&
    match cm_sons e with
    | r0 :: r1 :: _ => forallb (inb (cm_nbpts e)) (r0.2 ++ r1.2) && bool_decide (edges2D (cm_quad c) (at_ (cm_extrude c) <$> r0.2) ≡ₚ edges2D (cm_quad c) (seqZ 0 (cm_nbpts c))) &&
                       bool_decide (edges2D (cm_quad c) (at_ (cm_extrude c) <$> r1.2) ≡ₚ opp <$> edges2D (cm_quad c) (seqZ (30 * layers c) (cm_nbpts c)))
    | _ => false end
  | _ => false end.
Lemma models_ext : forallb extb models = true. Proof. vm_compute. done. Qed.

Lemma ext_run c conn off e : GetCellModel (cm_ext c) = Ok e -> zlen (cm_extrude c) = cm_nbpts e -> (forall v, v ∈ cm_extrude c -> 0 <= v mod 30 < zlen conn) ->
  buildExtruded c conn off = Ok ((fun v => at_ conn (v mod 30) + (v / 30) * off) <$> cm_extrude c).
Proof.
  intros He Hz Hv. unfold buildExtruded. rewrite He. cbn [bind]. rewrite <- Hz.
  enough (W : wp (forZ 0 (zlen (cm_extrude c)) (fun i ret => let* val := rd (cm_extrude c) i in let* x := rd conn (val mod 30) in Ok (ret ++ [x + (val / 30) * off])) []) (fun r => r = (fun v => at_ conn (v mod 30) + (v / 30) * off) <$> cm_extrude c) False).
  { destruct (forZ _ _ _ _); cbn in W; [by subst|done..]. }
  apply wp_forZ with (I := fun i r => r = (fun v => at_ conn (v mod 30) + (v / 30) * off) <$> take (Z.to_nat i) (cm_extrude c)).
  - apply zlen_nonneg.
  - done.
  - intros i r Hi ->. destruct (zlook_lt (cm_extrude c) i ltac:(lia)) as [v Ev]. rewrite (rd_ok _ _ _ Ev). cbn [bind]. rewrite rd_at by (apply Hv; by eapply zlook_elem). simpl.
    replace (Z.to_nat (i + 1)) with (S (Z.to_nat i)) by lia. rewrite (take_S_r _ _ v) by (rewrite zlook_to_nat in Ev by lia; done). by rewrite fmap_app.
  - intros r ->. unfold zlen. rewrite Nat2Z.id, firstn_all. done.
Qed.
Lemma at_map (g : Z -> Z) l i : 0 <= i < zlen l -> at_ (g <$> l) i = g (at_ l i).
Proof. intros H. unfold at_. rewrite zlook_fmap. destruct (zlook_lt l i H) as [x ->]. done. Qed.
Lemma at_map_all (g : Z -> Z) l r : Forall (fun i => 0 <= i < zlen l) r -> at_ (g <$> l) <$> r = g <$> (at_ l <$> r).
Proof. intros H. rewrite <- list_fmap_compose. apply list_fmap_ext. intros i x Hx. simpl. apply at_map. exact (proj1 (Forall_forall _ _) H x (elem_of_list_lookup_2 _ _ _ Hx)). Qed.

Lemma extruded_ok c conn off : c ∈ models -> cm_dyn c = false -> cm_dim c = 2 -> zlen conn = cm_nbpts c ->
  exists e conn' s0 s1, GetCellModel (cm_ext c) = Ok e /\ cm_dim e = 3 /\ buildExtruded c conn off = Ok conn' /\ zlen conn' = cm_nbpts e /\
    fillSon2 e 0 conn' = Ok s0 /\ fillSon2 e 1 conn' = Ok s1 /\ edges2D (cm_quad c) s0.2 ≡ₚ edges2D (cm_quad c) conn /\
    edges2D (cm_quad c) s1.2 ≡ₚ opp <$> edges2D (cm_quad c) ((fun x => x + layers c * off) <$> conn) /\
    (forall x, x ∈ conn' -> exists y k, y ∈ conn /\ 0 <= k <= layers c /\ x = y + k * off).
Proof.
  intros Hc Hd H2 Hl. pose proof (forallb_elem _ _ _ models_ext Hc) as H. unfold extb in H. rewrite Hd, H2 in H. simpl in H. destruct (GetCellModel (cm_ext c)) as [e| | |] eqn:He; try done.
  apply andb_true_iff in H as [H HS]. apply andb_true_iff in H as [H HK]. apply andb_true_iff in H as [H HV]. apply andb_true_iff in H as [H H30]. apply andb_true_iff in H as [H HZ]. apply andb_true_iff in H as [Hde H3].
  destruct (cm_sons e) as [|r0 [|r1 rs]] eqn:Es; try done. apply andb_true_iff in HS as [HS Ht]. apply andb_true_iff in HS as [HI Hb]. apply bool_decide_eq_true in Ht, Hb. apply Z.eqb_eq in HZ, H3. apply negb_true_iff in Hde.
  assert (Hv : forall v, v ∈ cm_extrude c -> 0 <= v mod 30 < zlen conn). { intros v Hv. pose proof (forallb_elem _ _ _ HV Hv) as H. unfold inb in H. lia. }
  assert (Hr : forall l, (forall x, x ∈ l -> x ∈ r0.2 ++ r1.2) -> Forall (fun i => 0 <= i < zlen (cm_extrude c)) l). { intros l Hin. apply Forall_forall. intros i Hi. pose proof (forallb_elem _ _ _ HI (Hin i Hi)) as H. unfold inb in H. lia. }
  set (g := fun v => at_ conn (v mod 30) + (v / 30) * off).
  assert (Hr0 : Forall (fun i => 0 <= i < zlen (cm_extrude c)) r0.2) by (apply Hr; intros; apply elem_of_app; by left).
  assert (Hr1 : Forall (fun i => 0 <= i < zlen (cm_extrude c)) r1.2) by (apply Hr; intros; apply elem_of_app; by right).
  assert (Hf : forall k r, cm_sons e @ k = Some r -> Forall (fun i => 0 <= i < zlen (cm_extrude c)) r.2 -> fillSon2 e k (g <$> cm_extrude c) = Ok (r.1, at_ (g <$> cm_extrude c) <$> r.2)).
  { intros k r Hk Hi. unfold fillSon2, getSonType2, fillSon. rewrite Hde. simpl. rewrite (rd_ok _ _ _ Hk). simpl. rewrite reads_ok; [done|]. by rewrite zlen_fmap. }
  assert (Hg : forall h, 0 <= h -> g <$> seqZ (30 * h) (cm_nbpts c) = (fun x => x + h * off) <$> conn).
  { intros h Hh. rewrite (at_seq conn) at 1. rewrite Hl. replace (seqZ (30 * h) (cm_nbpts c)) with (Z.add (30 * h) <$> seqZ 0 (cm_nbpts c)) by (rewrite fmap_add_seqZ; f_equal; lia). rewrite <- !list_fmap_compose. apply list_fmap_ext. intros i x Hx. apply elem_of_list_lookup_2, elem_of_seqZ in Hx. simpl. unfold g.
    replace ((30 * h + x) mod 30) with x by (apply Z.mod_unique with h; lia). replace ((30 * h + x) / 30) with h by (apply Z.div_unique with x; lia). done. }
  exists e, (g <$> cm_extrude c), (r0.1, at_ (g <$> cm_extrude c) <$> r0.2), (r1.1, at_ (g <$> cm_extrude c) <$> r1.2).
  refine (conj eq_refl (conj H3 (conj _ (conj _ (conj _ (conj _ (conj _ (conj _ _)))))))).
  - by apply ext_run with e.
  - by rewrite zlen_fmap.
  - apply Hf; [by rewrite Es|done].
  - apply Hf; [by rewrite Es|done].
  - simpl. rewrite at_map_all by done. rewrite edges2D_map, Hb, <- edges2D_map. pose proof (Hg 0 ltac:(lia)) as E. change (30 * 0) with 0 in E. rewrite E. replace ((fun x => x + 0 * off) <$> conn) with conn; [done|]. rewrite <- (list_fmap_id conn) at 1. apply list_fmap_ext. intros. simpl. lia.
  - simpl. rewrite at_map_all by done. rewrite edges2D_map, Ht. rewrite <- (Hg (layers c)) by (unfold layers; destruct (cm_quad c); lia). rewrite edges2D_map.
    enough (mapE g <$> (opp <$> edges2D (cm_quad c) (seqZ (30 * layers c) (cm_nbpts c))) = opp <$> (mapE g <$> edges2D (cm_quad c) (seqZ (30 * layers c) (cm_nbpts c)))) as -> by done. rewrite <- !list_fmap_compose. apply list_fmap_ext. intros i x _. simpl. by rewrite opp_map.
  - intros x Hx. apply elem_of_list_fmap in Hx as (v & -> & Hin). pose proof (forallb_elem _ _ _ HK Hin) as H. simpl in H. exists (at_ conn (v mod 30)), (v / 30). split; [|split; [|done]].
    + unfold at_. destruct (zlook_lt conn (v mod 30) (Hv v Hin)) as [y Ey]. rewrite Ey. by eapply zlook_elem.
    + apply andb_true_iff in H as [Ha Hb']. split; [apply Z.div_pos; lia|lia].
Qed.

(** ** Linear and quadratic types *)
Definition linb (c : cm) : bool := if negb (cm_quad c) then true else
  match GetCellModel (cm_lin c) with
  | Ok m => negb (cm_quad m) && (cm_dim m =? cm_dim c) && Bool.eqb (cm_dyn m) (cm_dyn c) && (0 <? cm_dim c) &&
    if cm_dyn c then true else (0 <? cm_nbpts m) && (cm_nbpts m <? cm_nbpts c) && (if cm_dim c =? 1 then true else bool_decide (bordersOf m (seqZ 0 (cm_nbpts m)) = (fun l : list edge => straight <$> l) <$> bordersOf c (seqZ 0 (cm_nbpts c))))
  | _ => false end.
Lemma models_lin : forallb linb models = true. Proof. vm_compute. done. Qed.
Definition quadb (c : cm) : bool := if cm_quad c then (cm_quadt c =? NORM_ERROR) && (cm_quadt2 c =? NORM_ERROR) else
  forallb (fun t => if t =? NORM_ERROR then true else match GetCellModel t with Ok q => cm_quad q && (cm_lin q =? cm_type c) | _ => false end) [cm_quadt c; cm_quadt2 c].
Lemma models_quad : forallb quadb models = true. Proof. vm_compute. done. Qed.
Lemma quad_ok c t : c ∈ models -> t = cm_quadt c \/ t = cm_quadt2 c -> t <> NORM_ERROR -> cm_quad c = false /\ exists q, GetCellModel t = Ok q /\ cm_quad q = true /\ cm_lin q = cm_type c.
Proof.
  intros Hc Ht Hn. pose proof (forallb_elem _ _ _ models_quad Hc) as H. unfold quadb in H. destruct (cm_quad c); [destruct Ht; lia|]. split; [done|].
  assert (Hin : t ∈ [cm_quadt c; cm_quadt2 c]) by (destruct Ht as [->| ->]; [by left|right; by left]). pose proof (forallb_elem _ _ _ H Hin) as H'. simpl in H'. destruct (t =? NORM_ERROR) eqn:?; [lia|]. destruct (GetCellModel t) as [q| | |]; try done. apply andb_true_iff in H' as [Ha Hb]. exists q. split; [done|]. split; [done|lia].
Qed.
Lemma straight_map f e : mapE f (straight e) = straight (mapE f e). Proof. done. Qed.
Lemma sons_range c n : c ∈ models -> cm_dyn c = false -> cm_dim c = 3 -> n = cm_nbpts c -> forall s, s ∈ cm_sons c -> Forall (fun i => 0 <= i < n) s.2.
Proof.
  intros Hc Hd H3 -> s Hs. pose proof (forallb_elem _ _ _ models_static Hc) as H. unfold staticb in H. rewrite Hd, H3 in H. simpl in H.
  apply andb_true_iff in H as [H _]. apply andb_true_iff in H as [H _]. apply andb_true_iff in H as [_ HS]. pose proof (forallb_elem _ _ _ HS Hs) as H. simpl in H. apply andb_true_iff in H as [H _]. apply Forall_forall. intros i Hi'. pose proof (forallb_elem _ _ _ H Hi'). unfold inb in *. lia.
Qed.
Lemma model_in t c : GetCellModel t = Ok c -> c ∈ models.
Proof.
  unfold GetCellModel. destruct (find _ models) as [x|] eqn:E; [|done]. intros [= <-]. apply find_some in E as [E _]. by apply elem_of_list_In.
Qed.
Lemma lin_ok c : c ∈ models -> cm_quad c = true -> exists m, GetCellModel (cm_lin c) = Ok m /\ cm_quad m = false /\ cm_dim m = cm_dim c /\ cm_dyn m = cm_dyn c /\
  (cm_dyn c = false -> cm_nbpts m < cm_nbpts c /\ (cm_dim c <> 1 -> forall conn, zlen conn = cm_nbpts c -> bordersOf m (take (Z.to_nat (cm_nbpts m)) conn) = (fun l : list edge => straight <$> l) <$> bordersOf c conn)).
Proof.
  intros Hc Hq. pose proof (forallb_elem _ _ _ models_lin Hc) as H. unfold linb in H. rewrite Hq in H. simpl in H. destruct (GetCellModel (cm_lin c)) as [m| | |] eqn:Em; try done.
  apply andb_true_iff in H as [H HB]. apply andb_true_iff in H as [H H0]. apply andb_true_iff in H as [H Hdy]. apply andb_true_iff in H as [Hqm Hdim]. apply eqb_prop in Hdy. exists m. split; [done|]. split; [by apply negb_true_iff|]. split; [lia|]. split; [done|].
  intros Hd. rewrite Hd in HB. apply andb_true_iff in HB as [HB HE]. apply andb_true_iff in HB as [Hp Hlt]. split; [lia|]. intros H1 conn Hl. destruct (cm_dim c =? 1) eqn:?; [lia|]. apply bool_decide_eq_true in HE.
  assert (Es : take (Z.to_nat (cm_nbpts m)) conn = at_ conn <$> seqZ 0 (cm_nbpts m)).
  { rewrite (at_seq conn) at 1. rewrite Hl, <- fmap_take. f_equal. replace (cm_nbpts c) with (cm_nbpts m + (cm_nbpts c - cm_nbpts m)) by lia. rewrite seqZ_app by lia. rewrite take_app_alt; [done|]. rewrite seqZ_length. lia. }
  assert (Hdim3 : cm_dim c = 2 \/ cm_dim c = 3). { clear -Hc Hq Heqb H0. assert (HH : forallb (fun c => negb (cm_quad c) || (cm_dim c =? 1) || (cm_dim c =? 2) || (cm_dim c =? 3)) models = true) by (vm_compute; done). pose proof (forallb_elem _ _ _ HH Hc) as H. simpl in H. rewrite Hq in H. simpl in H. lia. }
  assert (HM : forall x l, x ∈ models -> cm_dyn x = false -> cm_dim x = 2 \/ cm_dim x = 3 -> zlen l = cm_nbpts x -> bordersOf x (at_ conn <$> l) = (fun k : list edge => mapE (at_ conn) <$> k) <$> bordersOf x l).
  { intros x l Hx Hdx [H2|H3'] Hlx; [unfold bordersOf; rewrite H2; simpl; by rewrite edges2D_map|]. apply bordersOf_map. intros s Hs. by apply (sons_range x). }
  rewrite Es. rewrite HM; [|by eapply model_in|congruence|lia|unfold zlen; rewrite seqZ_length; lia].
  pose proof (HM c (seqZ 0 (cm_nbpts c)) Hc Hd Hdim3 ltac:(unfold zlen; rewrite seqZ_length; lia)) as EB. pose proof (at_seq conn) as Ec. rewrite Hl in Ec. rewrite <- Ec in EB. rewrite EB.
  rewrite HE. rewrite <- !list_fmap_compose. apply list_fmap_ext. intros i x _. simpl. rewrite <- !list_fmap_compose. done.
Qed.

Lemma linear_ok c : c ∈ models -> cm_quad c = true -> exists m, GetCellModel (cm_lin c) = Ok m /\ cm_quad m = false /\ cm_dim m = cm_dim c /\ cm_dyn m = cm_dyn c /\
  (cm_dyn c = false -> cm_nbpts m < cm_nbpts c /\ (cm_dim c <> 1 -> forall conn b b', zlen conn = cm_nbpts c -> borders c conn b -> borders m (take (Z.to_nat (cm_nbpts m)) conn) b' -> b' = (fun l : list edge => straight <$> l) <$> b)).
Proof.
  intros Hc Hq. destruct (lin_ok c Hc Hq) as (m & Hm & Hqm & Hdim & Hdy & H). exists m. do 4 (split; [done|]). intros Hd. destruct (H Hd) as [Hlt HB]. split; [done|]. intros H1 conn b b' Hl Hb Hb'.
  assert (H23 : cm_dim c = 2 \/ cm_dim c = 3). { clear -Hc Hq H1. assert (HH : forallb (fun c => negb (cm_quad c) || (cm_dim c =? 1) || (cm_dim c =? 2) || (cm_dim c =? 3)) models = true) by (vm_compute; done). pose proof (forallb_elem _ _ _ HH Hc) as H. simpl in H. rewrite Hq in H. simpl in H. lia. }
  assert (Hp : 0 <= cm_nbpts m). { pose proof (model_in _ _ Hm) as Hin. assert (HH : forallb (fun c => 0 <=? cm_nbpts c) models = true) by (vm_compute; done). pose proof (forallb_elem _ _ _ HH Hin) as H'. simpl in H'. lia. }
  apply borders_canon in Hb as ->; [|done..]. apply borders_canon in Hb' as ->; [by apply HB|by eapply model_in|congruence|lia|]. unfold zlen in *. rewrite take_length. lia.
Qed.

(** ** Compatibility of types, types for polygons, numbers of micro edges *)
Lemma GetCellModel_type c : c ∈ models -> GetCellModel (cm_type c) = Ok c.
Proof. intros Hc. unfold models in Hc. repeat (apply elem_of_cons in Hc as [->|Hc]; [reflexivity|]). by apply elem_of_nil in Hc. Qed.
Lemma compatible_ok c c' : c ∈ models -> c' ∈ models -> isCompatibleWith c (cm_type c') = Ok (bool_decide (cm_type c = cm_type c') || ((cm_dim c =? cm_dim c') && Bool.eqb (cm_quad c) (cm_quad c') && (cm_dyn c || cm_dyn c'))).
Proof.
  intros Hc Hc'. unfold isCompatibleWith. rewrite (GetCellModel_type c' Hc'). case_bool_decide as E; [rewrite E, Z.eqb_refl; done|]. rewrite (proj2 (Z.eqb_neq _ _) E). cbn [bind orb]. destruct (cm_dim c =? cm_dim c'); [|done]. cbn [negb andb]. destruct (cm_quad c), (cm_quad c'); done.
Qed.
Definition polyb (c : cm) : bool := match getCorrespondingPolyType c with
  | Ok t => match GetCellModel t with Ok m => (cm_dim m =? cm_dim c) && Bool.eqb (cm_quad m) (cm_quad c) && (cm_dyn m || (cm_dim c =? 0)) | _ => false end
  | Throw => (cm_quad c && negb (cm_dim c =? 2)) || (3 <? cm_dim c) | _ => false end.
Lemma models_poly : forallb polyb models = true. Proof. vm_compute. done. Qed.
Lemma poly_ok c : c ∈ models -> (forall t, getCorrespondingPolyType c = Ok t -> exists m, GetCellModel t = Ok m /\ cm_dim m = cm_dim c /\ cm_quad m = cm_quad c /\ (cm_dim c = 0 \/ cm_dyn m = true)) /\
  (getCorrespondingPolyType c = Throw -> (cm_quad c = true /\ cm_dim c <> 2) \/ 3 < cm_dim c).
Proof.
  intros Hc. pose proof (forallb_elem _ _ _ models_poly Hc) as H. unfold polyb in H. split.
  - intros t Ht. rewrite Ht in H. destruct (GetCellModel t) as [m| | |]; try done. exists m. split; [done|]. apply andb_true_iff in H as [H H3]. apply andb_true_iff in H as [H1 H2]. apply eqb_prop in H2. split; [lia|]. split; [done|]. destruct (cm_dyn m); [by right|]. left. simpl in H3. lia.
  - intros Ht. rewrite Ht in H. destruct (cm_quad c); [|right; simpl in H; lia]. simpl in H. destruct (decide (cm_dim c = 2)); [right; lia|left; done].
Qed.
Lemma microb_ok : forallb (fun c => cm_dyn c || negb (cm_dim c =? 3) || (cm_type c =? NORM_HEXA27) || match cm_little c with Some l => zlen l <? 100 | None => false end) models = true. Proof. vm_compute. done. Qed.
Lemma microcount_ok c : c ∈ models -> cm_dyn c = false -> cm_type c <> NORM_HEXA27 -> cm_dim c = 2 \/ cm_dim c = 3 -> exists n, getNumberOfEdges c = Ok n /\ getNumberOfMicroEdges c = Ok (layers c * n).
Proof.
  intros Hc Hd H27 Hdim. unfold getNumberOfEdges, getNumberOfMicroEdges, layers. rewrite Hd. destruct Hdim as [E|E]; rewrite E; simpl; [eauto|]. pose proof (forallb_elem _ _ _ microb_ok Hc) as H. simpl in H. rewrite Hd, E in H. simpl in H. rewrite (proj2 (Z.eqb_neq _ _) H27) in H. simpl in H. destruct (cm_little c) as [l|]; [|done]. exists (zlen l). split; [done|]. pose proof (zlen_nonneg l). f_equal. apply Z.mod_small. destruct (cm_quad c); lia.
Qed.
(** The other numbering of the faces of a hexahedron gives the same faces. *)
Lemma fillSon4_ok c conn k : 0 <= k < 6 -> cm_type c = NORM_HEXA8 -> exists k', 0 <= k' < 6 /\ fillSon4 c k conn = fillSon2 c k' conn /\ (forall j, 0 <= j < 6 -> j <> k -> exists j', 0 <= j' < 6 /\ j' <> k' /\ fillSon4 c j conn = fillSon2 c j' conn).
Proof.
  intros Hk Ht. unfold fillSon4. rewrite Ht, Z.eqb_refl. set (t := [0; 2; 3; 4; 5; 1]).
  assert (HT : forall i, 0 <= i < 6 -> exists x, t @ i = Some x /\ 0 <= x < 6). { intros i Hi. assert (i = 0 \/ i = 1 \/ i = 2 \/ i = 3 \/ i = 4 \/ i = 5) as [->|[->|[->|[->|[->| ->]]]]] by lia; eexists; (split; [reflexivity|lia]). }
  destruct (HT k Hk) as (x & Ex & Hx). exists x. rewrite (rd_ok _ _ _ Ex). split; [done|]. split; [done|]. intros j Hj Hn. destruct (HT j Hj) as (y & Ey & Hy). exists y. rewrite (rd_ok _ _ _ Ey). split; [done|]. split; [|done].
  intros ->. apply Hn. assert (ND : NoDup t) by (apply (bool_decide_unpack _); vm_compute; done). rewrite zlook_to_nat in Ex, Ey by lia. pose proof (NoDup_lookup t _ _ _ ND Ex Ey). lia.
Qed.

(** ** What does not hold *)
Ltac in_models := unfold models; repeat (first [apply elem_of_list_here|apply elem_of_list_further]).
Lemma status_quadratic_refuted : exists c conn, c ∈ models /\ cm_quad c = true /\ cm_dim c = 2 /\ zlen conn = cm_nbpts c /\ NoDup conn /\ getOrientationStatus c conn conn = Ok false.
Proof. exists cm_TRI6, [0; 1; 2; 3; 4; 5]. split; [in_models|]. do 3 (split; [done|]). split; [apply (bool_decide_unpack _); vm_compute; done|]. vm_compute. done. Qed.
Lemma invert_seg3_refuted : ~ forall a b m, invertOrientation NORM_SEG3 (edge_nodes (a, b, [m])) = Ok (edge_nodes (opp (a, b, [m]))).
Proof. intros H. specialize (H 0 1 2). vm_compute in H. done. Qed.
Lemma change2D_centre_refuted : exists c conn, c ∈ models /\ cm_dim c = 2 /\ cm_dyn c = false /\ zlen conn = cm_nbpts c /\ changeOrientationOf2D c conn = UB.
Proof. exists cm_TRI7, [0; 1; 2; 3; 4; 5; 6]. split; [in_models|]. do 3 (split; [done|]). vm_compute. done. Qed.
Lemma polyline_refuted : exists conn conn', changeOrientationOf1D cm_POLYL conn = Ok conn' /\ conn' <> rev conn /\ conn' <> conn.
Proof. exists [0; 1; 2; 3], [0; 3; 2; 1]. split; [vm_compute; done|]. split; done. Qed.
Lemma hexa27_refuted : getNumberOfEdges cm_HEXA27 = Ok 4294967295 /\ forall k conn, fillSonEdges3D cm_HEXA27 k conn = UB.
Proof. split; [done|]. intros. done. Qed.
Lemma polyline_sons conn k : getNumberOfSons2 cm_POLYL conn = zlen conn /\ fillSon2 cm_POLYL k conn = Throw.
Proof. done. Qed.
Lemma cell_ex : cm_HEXA8 ∈ models /\ zlen [10; 11; 12; 13; 20; 21; 22; 23] = cm_nbpts cm_HEXA8 /\ fillSon2 cm_HEXA8 1 [10; 11; 12; 13; 20; 21; 22; 23] = Ok (NORM_QUAD4, [20; 23; 22; 21]) /\
  fillSonEdges3D cm_HEXA8 11 [10; 11; 12; 13; 20; 21; 22; 23] = Ok (NORM_SEG2, [13; 23]) /\ invertOrientation NORM_HEXA8 [10; 11; 12; 13; 20; 21; 22; 23] = Ok [10; 13; 12; 11; 20; 23; 22; 21] /\
  polyhedron [[0; 1; 2]; [0; 3; 1]; [1; 3; 2]; [2; 3; 0]] = [0; 1; 2; -1; 0; 3; 1; -1; 1; 3; 2; -1; 2; 3; 0] /\ getNumberOfEdgesIn3D cm_POLYHED (polyhedron [[0; 1; 2]; [0; 3; 1]; [1; 3; 2]; [2; 3; 0]]) = Ok 6 /\
  changeOrientationOf2D cm_TRI6 [0; 1; 2; 3; 4; 5] = Ok [0; 2; 1; 5; 4; 3] /\ buildExtruded cm_TRI3 [0; 1; 2] 100 = Ok [0; 1; 2; 100; 101; 102] /\
  getOrientationStatus cm_QUAD4 [5; 6; 7; 8] [7; 8; 5; 6] = Ok true /\ getOrientationStatus cm_QUAD4 [5; 6; 7; 8] [6; 5; 8; 7] = Ok false.
Proof. split; [in_models|]. vm_compute. done. Qed.
