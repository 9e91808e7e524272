(** Proofs: meshes turned over. *)
From Coq Require Import QArith ZifyBool ZifyNat.
From Verif Require Import Base DataArray IndexSpec FillLib IndexProofs3 IndexProofs4 CellTable CellModel CellSpec CellProofs CellProofs4 CellProofs5 UmModel UmSpec UmProofs UmProofs2 UmProofs10 UcModel TyModel TySpec TyProofs2 TyExamples DgModel DgProofs4 DgProofs5 SxProofs SxProofs3 SxProofs4 OiModel OiSpec OiProofs.
Local Open Scope Z_scope.

Lemma model_type t k : GetCellModel t = Ok k -> cm_type k = t.
Proof. unfold GetCellModel. destruct (List.find _ models) eqn:Ef; [|done]. intros [= ->]. apply List.find_some in Ef as [_ Ef]. lia. Qed.
Lemma inverted_dim t k : t ∈ inverted -> GetCellModel t = Ok k -> cm_dim k =? 1 = false.
Proof. intros Ht Hk. unfold inverted in Ht. repeat (apply elem_of_cons in Ht as [->|Ht]; [injection Hk as <-; reflexivity|]). by apply elem_of_nil in Ht. Qed.
Lemma perm_len (a b : list Z) : a ≡ₚ b -> zlen a = zlen b.
Proof. intros H. unfold zlen. by rewrite H. Qed.
Lemma invert_cell dim c : can_invert dim c -> inv_ok dim c /\ turned_over c (inv c) /\ inv_ok dim (inv c) /\ inv (inv c) = c.
Proof.
  intros (k & Hk & Hd & H).
  assert (exists l', invertOrientation c.1 c.2 = Ok l' /\ l' ≡ₚ c.2 /\ invertOrientation c.1 l' = Ok c.2 /\ (if cm_dim k =? 1 then exists e, c.2 = edge_nodes e /\ l' = edge_nodes (opp e) else forall b b', borders k c.2 b -> borders k l' b' -> opposite b b')) as (l' & E & Hp & E' & Hb).
  { pose proof (model_type _ _ Hk) as Ht. destruct H as [[Hin Hl]|[[Hpo Hl]|[Hpo Hl]]].
    - apply elem_of_cons in Hin as [H2|Hin].
      + destruct c as [t l]. cbn [fst snd] in *. rewrite H2 in Hk. injection Hk as <-. apply len_nat in Hl. destruct l as [|a [|b [|]]]; try discriminate Hl. exists [b; a]. rewrite H2. split; [done|]. split; [apply perm_swap|]. split; [done|]. exists (a, b, []). done.
      + rewrite (inverted_dim _ _ Hin Hk). rewrite <- Ht in Hin |- *. destruct (invert_static k c.2 (model_in _ _ Hk) Hin Hl) as (l' & A & B & C & D). by exists l'.
    - rewrite Hpo in Hk |- *. injection Hk as <-. destruct (invert_polygon c.2 Hl) as (l' & A & B & C & D). exists l'. split; [done|]. split; [done|]. split; [done|]. intros b b' -> ->. done.
    - rewrite Hpo in Hk |- *. injection Hk as <-. destruct (invert_qpolyg c.2 Hl) as (l' & A & B & C & D). exists l'. split; [done|]. split; [done|]. split; [done|]. intros b b' -> ->. done. }
  assert (inv c = (c.1, l')) as Ei by (unfold inv; by rewrite E). rewrite Ei. pose proof (perm_len _ _ Hp) as HL.
  split; [exists k, l'; done|]. split; [split; [done|]; split; [done|]; exists k; done|]. split; [exists k, c.2; done|]. unfold inv. cbn [fst snd]. rewrite E'. by destruct c.
Qed.
Lemma fmap_f2 {A} (R : A -> A -> Prop) (f : A -> A) (l : list A) : (forall x, x ∈ l -> R x (f x)) -> Forall2 R l (f <$> l).
Proof. induction l as [|x l IH]; intros H; [by apply Forall2_nil_2|]. rewrite fmap_cons. constructor; [apply H, elem_of_list_here|]. apply IH. intros; apply H; by right. Qed.
Lemma fmap_same {A} (f : A -> A) (l : list A) : (forall x, x ∈ l -> f x = x) -> f <$> l = l.
Proof. induction l as [|x l IH]; intros H; [done|]. rewrite fmap_cons, H by left. f_equal. apply IH. intros; apply H; by right. Qed.
Lemma same_types (f : cell -> cell) m m' (cells : list cell) : (forall c, (f c).1 = c.1) -> um_types m' = um_types m -> typed m cells -> typed m' (f <$> cells).
Proof.
  intros Hf E [H1 H2]. unfold typed. rewrite E. split; [done|]. intros t. rewrite H2. split.
  - intros (c & Hc & <-). exists (f c). split; [apply elem_of_list_fmap; by exists c|done].
  - intros (c & Hc & <-). apply elem_of_list_fmap in Hc as (c0 & -> & Hc0). exists c0. by rewrite Hf.
Qed.
Lemma same_mesh m1 m2 cells : stores m1 cells -> stores m2 cells -> um_dim m1 = um_dim m2 -> um_coords m1 = um_coords m2 -> um_types m1 = um_types m2 -> m1 = m2.
Proof.
  intros H1 H2 E1 E2 E3. destruct (stores_get _ _ H1) as (c1 & i1 & A1 & B1 & S1 & _). destruct (stores_get _ _ H2) as (c2 & i2 & A2 & B2 & S2 & _). destruct (sky_eq _ _ _ S1) as [-> ->]. destruct (sky_eq _ _ _ S2) as [-> ->].
  destruct m1, m2. cbn in *. congruence.
Qed.
Lemma invert_ok m cells : 0 <= um_dim m -> stores m cells -> typed m cells -> (forall c, c ∈ cells -> can_invert (um_dim m) c) ->
  exists m' cells', invertOrientationOfAllCells m = Ok m' /\ Forall2 turned_over cells cells' /\ stores m' cells' /\ typed m' cells' /\ um_dim m' = um_dim m /\ um_coords m' = um_coords m /\ invertOrientationOfAllCells m' = Ok m.
Proof.
  intros Hd Hs Ht Hc. destruct (invert_mesh m cells Hd Hs Ht) as (m' & E & Hs' & Ed & Eco & Ety & EI); [intros c H; by apply invert_cell, Hc|]. exists m', (inv <$> cells). split; [done|]. split; [apply fmap_f2; intros c H; by eapply invert_cell, Hc|].
  assert (typed m' (inv <$> cells)) as Ht' by (by eapply same_types). split; [done|]. split; [done|]. split; [done|]. split; [done|].
  destruct (invert_mesh m' (inv <$> cells)) as (m2 & -> & Hs2 & Ed2 & Eco2 & Ety2 & _); [by rewrite Ed|done|done| |].
  { intros c H. apply elem_of_list_fmap in H as (c0 & -> & H0). rewrite Ed. by apply invert_cell, Hc. }
  f_equal. eapply same_mesh; [| |congruence|congruence|congruence]; [|exact Hs]. rewrite <- list_fmap_compose in Hs2. rewrite fmap_same in Hs2; [done|]. intros c H. unfold compose. by eapply invert_cell, Hc.
Qed.

(** changeOrientationOfCells *)
Definition chgOf (dim : Z) (c : cell) : res (list Z) := let* k := GetCellModel c.1 in if dim =? 2 then changeOrientationOf2D k c.2 else changeOrientationOf1D k c.2.
Definition chg (dim : Z) (c : cell) : cell := (c.1, match chgOf dim c with Ok l => l | _ => [] end).
Definition chg_ok (dim : Z) (c : cell) : Prop := exists l', chgOf dim c = Ok l' /\ zlen l' = zlen c.2.
Lemma change_mesh m cells : um_dim m = 1 \/ um_dim m = 2 -> stores m cells -> (forall c, c ∈ cells -> chg_ok (um_dim m) c) ->
  exists m', changeOrientationOfCells m = Ok m' /\ stores m' (chg (um_dim m) <$> cells) /\ um_dim m' = um_dim m /\ um_coords m' = um_coords m /\ um_types m' = um_types m.
Proof.
  intros Hd Hs Hk. destruct (stores_get m cells Hs) as (conn & connI & Ec & EI & Hsky & _). unfold changeOrientationOfCells, getMeshDimension, unchecked. rewrite Ec, EI, (numCells_ok m cells Hs). unfold ifthrow. replace (um_dim m <? -1) with false by lia. cbn [bind]. replace (negb (um_dim m =? 2) && negb (um_dim m =? 1)) with false by lia. cbn [bind].
  unfold forZ. rewrite Z.sub_0_r.
  match goal with |- context [foldM ?g _ _] => destruct (on_cells connI g (chg (um_dim m)) (chg_ok (um_dim m))) with (ids := seqZ 0 (zlen cells)) (cells := cells) (conn := conn) as (conn' & cells' & E & Hs' & Hl & Hv) end.
  { intros cs cn i c Hsk Hc (l' & Ho & Hlen). destruct (read_cell cs cn connI Hsk i c Hc) as (a & E1 & _ & E2 & _). unfold typeAt. rewrite E1. cbn [bind]. rewrite E2. cbn [bind]. unfold chgOf in Ho. destruct (GetCellModel c.1) as [k| | |] eqn:Ek; try done. cbn [bind] in Ho |- *.
    destruct (on_cell cs cn connI i c (if um_dim m =? 2 then changeOrientationOf2D k else changeOrientationOf1D k) l' Hsk Hc) as (conn' & E & H); [by destruct (um_dim m =? 2)|done|]. exists conn'. split; [done|]. unfold chg, chgOf. rewrite Ek. cbn [bind]. rewrite Ho. done. }
  { apply NoDup_seqZ. } { done. }
  { intros i Hi. apply elem_of_seqZ in Hi. destruct (zlook_lt cells i ltac:(lia)) as [c Hc]. exists c. split; [done|]. apply Hk. by eapply zlook_elem. }
  rewrite E. cbn [bind]. eexists. split; [reflexivity|]. split; [|done]. exists conn', connI. split; [done|]. split; [done|]. assert (cells' = chg (um_dim m) <$> cells) as <-; [|done]. eapply as_fmap; [done|exact Hv|]. intros i c Hc. cbn. rewrite bool_decide_true; [done|]. apply elem_of_seqZ. pose proof (zlook_Some_lt _ _ _ Hc). lia.
Qed.
Lemma change_cell dim c : dim = 1 \/ dim = 2 -> can_change dim c -> chg_ok dim c /\ turned_over c (chg dim c) /\ chg_ok dim (chg dim c) /\ chg dim (chg dim c) = c.
Proof.
  intros Hdim (k & Hk & Hd & H).
  assert (exists l', chgOf dim c = Ok l' /\ l' ≡ₚ c.2 /\ chgOf dim (c.1, l') = Ok c.2 /\ (if cm_dim k =? 1 then exists e, c.2 = edge_nodes e /\ l' = edge_nodes (opp e) else forall b b', borders k c.2 b -> borders k l' b' -> opposite b b')) as (l' & E & Hp & E' & Hb).
  { unfold chgOf. cbn [fst snd]. rewrite Hk, Hd. cbn [bind]. destruct Hdim as [-> | ->].
    - change (1 =? 2) with false. change (1 =? 1) with true in *. cbv iota in *. destruct H as [Hdy Hl]. destruct c as [t l]. cbn [fst snd] in *. destruct l as [|a [|b r]]; [unfold zlen in Hl; cbn [length] in Hl; lia|unfold zlen in Hl; cbn [length] in Hl; lia|]. rewrite !zlen_cons in Hl.
      assert (length r <= 2)%nat as Hr by (unfold zlen in Hl; lia). exists (edge_nodes (opp (a, b, r))). split; [by apply (change1D_ok k a b r)|]. split; [unfold edge_nodes, opp; cbn; rewrite <- (Permutation_rev r); apply perm_swap|]. split.
      + change (opp (a, b, r)) with (b, a, rev r). rewrite change1D_ok by (try done; by rewrite rev_length). unfold opp, edge_nodes. cbn. by rewrite rev_involutive.
      + exists (a, b, r). done.
    - change (2 =? 2) with true. change (2 =? 1) with false in *. cbv iota in *. destruct (change2D_ok k c.2 H) as (l' & A & B & _ & C & D). exists l'. split; [done|]. split; [done|]. split; [done|]. unfold borders. rewrite Hd. intros b b' -> ->. done. }
  assert (chg dim c = (c.1, l')) as Ei by (unfold chg; by rewrite E). rewrite Ei. pose proof (perm_len _ _ Hp) as HL.
  split; [exists l'; done|]. split; [split; [done|]; split; [done|]; exists k; done|]. split; [exists c.2; done|]. unfold chg. rewrite E'. by destruct c.
Qed.
Lemma change_ok m cells : um_dim m = 1 \/ um_dim m = 2 -> stores m cells -> typed m cells -> (forall c, c ∈ cells -> can_change (um_dim m) c) ->
  exists m' cells', changeOrientationOfCells m = Ok m' /\ Forall2 turned_over cells cells' /\ stores m' cells' /\ typed m' cells' /\ um_dim m' = um_dim m /\ um_coords m' = um_coords m /\ changeOrientationOfCells m' = Ok m.
Proof.
  intros Hd Hs Ht Hc. destruct (change_mesh m cells Hd Hs) as (m' & E & Hs' & Ed & Eco & Ety); [intros c H; by apply change_cell, Hc|]. exists m', (chg (um_dim m) <$> cells). split; [done|]. split; [apply fmap_f2; intros c H; by eapply change_cell, Hc|].
  assert (typed m' (chg (um_dim m) <$> cells)) as Ht' by (by eapply same_types). split; [done|]. split; [done|]. split; [done|]. split; [done|].
  destruct (change_mesh m' (chg (um_dim m) <$> cells)) as (m2 & -> & Hs2 & Ed2 & Eco2 & Ety2); [by rewrite Ed|done| |].
  { intros c H. apply elem_of_list_fmap in H as (c0 & -> & H0). rewrite Ed. by apply change_cell, Hc. }
  f_equal. eapply same_mesh; [| |congruence|congruence|congruence]; [|exact Hs]. rewrite Ed, <- list_fmap_compose in Hs2. rewrite fmap_same in Hs2; [done|]. intros c H. unfold compose. by eapply change_cell, Hc.
Qed.
Lemma change_bad m : um_dim m <> 1 -> um_dim m <> 2 -> changeOrientationOfCells m = Throw.
Proof. intros H1 H2. unfold changeOrientationOfCells, getMeshDimension, ifthrow. destruct (um_dim m <? -1); [done|]. cbn [bind]. by replace (negb (um_dim m =? 2) && negb (um_dim m =? 1)) with true by lia. Qed.

(** Tests *)
Lemma quad_types t k : GetCellModel t = Ok k -> (cm_quad k = true <-> t ∈ [NORM_SEG3; NORM_SEG4; NORM_TRI6; NORM_TRI7; NORM_QUAD8; NORM_QUAD9; NORM_QPOLYG; NORM_TETRA10; NORM_PYRA13; NORM_PENTA15; NORM_PENTA18; NORM_HEXA20; NORM_HEXA27]).
Proof.
  intros Hk. pose proof (model_type _ _ Hk) as <-. pose proof (model_in _ _ Hk) as Hin. clear Hk. unfold models in Hin.
  repeat (apply elem_of_cons in Hin as [->|Hin]; [split; [first [discriminate|intros _; rewrite !elem_of_cons; tauto]|intros H; first [reflexivity|exfalso; rewrite !elem_of_cons, elem_of_nil in H; decompose [or] H; done]]|]). by apply elem_of_nil in Hin.
Qed.
Lemma quadratic_ok m cells : um_coords m <> None -> stores m cells -> (forall c, c ∈ cells -> exists k, GetCellModel c.1 = Ok k) ->
  exists b1 b2, isFullyQuadratic m = Ok b1 /\ (b1 = true <-> forall c, c ∈ cells -> quadratic_cell c) /\ isPresenceOfQuadratic m = Ok b2 /\ (b2 = true <-> exists c, c ∈ cells /\ quadratic_cell c).
Proof.
  intros Hco Hs Hk. destruct (stores_get m cells Hs) as (conn & connI & Ec & EI & Hsky & _). unfold isFullyQuadratic, isPresenceOfQuadratic, checkFullyDefined. rewrite Ec, EI. destruct (um_coords m) as [co|]; [|done]. rewrite (numCells_ok m cells Hs). cbn [bind].
  pose (q := fun c : cell => match GetCellModel c.1 with Ok k => cm_quad k | _ => false end).
  rewrite (forZ_blocks _ (fun pre : list cell => forallb q pre) (zlen cells) cells eq_refl).
  2:{ intros pre c post E. rewrite forallb_app. cbn [forallb]. destruct (forallb q pre); [|done]. destruct (read_cell cells conn connI Hsky (zlen pre) c) as (a & E1 & _ & E2 & _); [rewrite E; apply mid_at|]. unfold typeAt. rewrite E1. cbn [bind]. rewrite E2. cbn [bind].
      destruct (Hk c) as [k Ek]; [rewrite E; set_solver|]. unfold q. rewrite Ek. cbn [bind]. by rewrite andb_true_r. }
  rewrite (forZ_blocks _ (fun pre : list cell => existsb q pre) (zlen cells) cells eq_refl).
  2:{ intros pre c post E. rewrite existsb_app. cbn [existsb]. destruct (existsb q pre); [done|]. destruct (read_cell cells conn connI Hsky (zlen pre) c) as (a & E1 & _ & E2 & _); [rewrite E; apply mid_at|]. cbn [negb]. unfold typeAt. rewrite E1. cbn [bind]. rewrite E2. cbn [bind].
      destruct (Hk c) as [k Ek]; [rewrite E; set_solver|]. unfold q. rewrite Ek. cbn [bind]. by rewrite orb_false_r. }
  assert (forall c, c ∈ cells -> (q c = true <-> quadratic_cell c)) as Hq.
  { intros c Hc. destruct (Hk c Hc) as [k Ek]. unfold q. rewrite Ek. by apply quad_types. }
  eexists _, _. split; [reflexivity|]. split; [|split; [reflexivity|]].
  - rewrite forallb_forall. split; intros H c Hc; [apply Hq, H; [done|by apply elem_of_list_In]|apply elem_of_list_In in Hc; apply Hq; [done|by apply H]].
  - rewrite existsb_exists. split; intros (c & Hc & H); exists c; [apply elem_of_list_In in Hc; split; [done|by apply Hq]|split; [by apply elem_of_list_In|by apply Hq]].
Qed.
