(** Proofs: cells made polygons or polyhedra. *)
From Coq Require Import QArith ZifyBool ZifyNat.
From Verif Require Import Base DataArray IndexSpec FillLib IndexProofs3 IndexProofs4 CellTable CellModel CellSpec CellProofs CellProofs3 CellProofs5 UmModel UmSpec UmProofs UmProofs2 UmProofs10 TyModel TySpec TyProofs2 DgModel DgSpec DgProofs4 DgProofs5 DgProofs7 SxModel SxSpec SxProofs SxProofs3.
Local Open Scope Z_scope.

Lemma sky_eq cells conn connI : skyline (pk <$> cells) conn connI -> conn = concat (pk <$> cells) /\ connI = psums (lens cells).
Proof. intros [-> Hp]. split; [done|]. by apply prefix_sums_eq. Qed.
Definition polygon (k : cm) (c : cell) : cell := (if cm_quad k then NORM_QPOLYG else NORM_POLYGON, c.2).
Lemma poly_again k (c c' : cell) : as_poly (polygon k c) c' -> c' = polygon k c.
Proof.
  intros [(k' & Hk & _ & ->)|[[Hin _]|[_ ->]]]; [..|done]; unfold polygon in *; cbn [fst snd] in *; destruct (cm_quad k); try (injection Hk as <-; reflexivity); exfalso; clear -Hin; rewrite !elem_of_cons, elem_of_nil in Hin; decompose [or] Hin; try done.
Qed.
Lemma split_at (cells : list cell) i c : cells @ i = Some c -> exists pre post, cells = pre ++ c :: post /\ zlen pre = i.
Proof.
  intros H. pose proof (zlook_Some_lt _ _ _ H) as Hi. rewrite zlook_to_nat in H by lia. exists (take (Z.to_nat i) cells), (drop (S (Z.to_nat i)) cells). split; [symmetry; by apply take_drop_middle|]. rewrite zlen_take. lia.
Qed.
Lemma plane_fold n connI ids : forall (cells : list cell) conn, zlen cells = n -> skyline (pk <$> cells) conn connI -> (forall i, i ∈ ids -> 0 <= i < n) ->
  (forall i c, i ∈ ids -> cells @ i = Some c -> exists k, GetCellModel c.1 = Ok k /\ cm_dim k = 2) ->
  exists conn' cells', foldM (fun conn id => if (0 <=? id) && (id <? n) then let* a := rd connI id in let* t := rd conn a in let* c := GetCellModel t in wr conn a (if negb (cm_quad c) then NORM_POLYGON else NORM_QPOLYG) else Throw) ids conn = Ok conn' /\
    skyline (pk <$> cells') conn' connI /\ made_poly ids cells cells'.
Proof.
  induction ids as [|id ids IH]; intros cells conn Hn Hsky Hin Hk.
  { exists conn, cells. split; [done|]. split; [done|]. split; [done|]. intros i c c' H1 H2. rewrite H1 in H2. injection H2 as <-. split; [intros Hx; by apply elem_of_nil in Hx|done]. }
  pose proof (Hin id ltac:(left)) as Hid. destruct (zlook_lt cells id ltac:(lia)) as [c Hc]. destruct (Hk id c ltac:(left) Hc) as (k & Ek & Dk).
  destruct (read_cell cells conn connI Hsky id c Hc) as (a & E1 & _ & E2 & _). cbn [foldM]. replace ((0 <=? id) && (id <? n)) with true by lia. rewrite E1. cbn [bind]. rewrite E2. cbn [bind]. rewrite Ek. cbn [bind].
  destruct (split_at cells id c Hc) as (pre & post & -> & Hpre). destruct (sky_eq _ _ _ Hsky) as [-> ->].
  assert (a = zlen (concat (pk <$> pre))) as ->.
  { assert (rd (psums (lens (pre ++ c :: post))) id = Ok (zlen (concat (pk <$> pre)))) as E.
    { apply rd_ok. destruct Hsky as [_ [_ Hp]]. unfold lens. rewrite Hp by (rewrite !zlen_fmap, zlen_app, zlen_cons; pose proof (zlen_nonneg post); lia). f_equal. rewrite pk_concat, <- fmap_take, <- fmap_take. unfold lens. do 3 f_equal. replace (Z.to_nat id) with (length pre) by (unfold zlen in Hpre; lia). apply take_app. }
    rewrite E in E1. by injection E1 as ->. }
  rewrite fmap_app, fmap_cons, concat_app. cbn [concat]. unfold pk at 2. cbn [app]. rewrite buf_settype. cbn [bind].
  set (c1 := polygon k c). assert (lens (pre ++ c :: post) = lens (pre ++ c1 :: post)) as EL by (unfold lens; by rewrite !fmap_app, !fmap_cons).
  assert (forall i, i <> id -> (pre ++ c :: post) @ i = (pre ++ c1 :: post) @ i) as Eo.
  { intros i Hi. rewrite !zlook_app. destruct (i <? zlen pre); [done|]. rewrite !zlook_cons. destruct (Z.eqb_spec (i - zlen pre) 0); [lia|done]. }
  assert ((pre ++ c1 :: post) @ id = Some c1) as Ec1 by (rewrite <- Hpre; apply mid_at).
  destruct (IH (pre ++ c1 :: post) (concat (pk <$> pre) ++ (if negb (cm_quad k) then NORM_POLYGON else NORM_QPOLYG) :: c.2 ++ concat (pk <$> post))) as (conn' & cells' & E & Hs' & Hm).
  - rewrite <- Hn, !zlen_app, !zlen_cons. done.
  - rewrite EL. assert (concat (pk <$> pre) ++ (if negb (cm_quad k) then NORM_POLYGON else NORM_QPOLYG) :: c.2 ++ concat (pk <$> post) = concat (pk <$> (pre ++ c1 :: post))) as ->; [|apply (skyline_psums (pk <$> (pre ++ c1 :: post)))].
    rewrite fmap_app, fmap_cons, concat_app. cbn [concat]. unfold pk at 4, c1, polygon. cbn [fst snd app]. by destruct (cm_quad k).
  - intros; apply Hin; by right.
  - intros i c2 Hi H2. destruct (decide (i = id)) as [->|Hne].
    + rewrite Ec1 in H2. injection H2 as <-. unfold c1, polygon. cbn [fst]. destruct (cm_quad k); eexists; (split; [reflexivity|done]).
    + rewrite <- Eo in H2 by done. eapply Hk; [right; exact Hi|done].
  - exists conn', cells'. split; [done|]. split; [done|]. destruct Hm as [Hl Hm]. split; [rewrite Hl, !zlen_app, !zlen_cons; done|]. intros i c2 c' H1 H2. destruct (decide (i = id)) as [->|Hne].
    + rewrite Hc in H1. injection H1 as <-. split; [|intros Hx; exfalso; apply Hx; left]. intros _. destruct (Hm id c1 c' Ec1 H2) as [Ha Hb]. assert (c' = c1) as ->; [|left; exists k; done].
      destruct (decide (id ∈ ids)) as [Hy|Hy]; [apply poly_again; by apply Ha|by apply Hb].
    + rewrite Eo in H1 by done. destruct (Hm i c2 c' H1 H2) as [Ha Hb]. split; [intros Hx; apply Ha; set_solver|intros Hx; apply Hb; set_solver].
Qed.

Lemma solid_work t l : t ∈ [NORM_TETRA4; NORM_PYRA5; NORM_PENTA6; NORM_HEXA8; NORM_HEXGP12] -> zlen l = size_of t -> exists k, GetCellModel t = Ok k /\
  forZ 0 (getNumberOfSons2 k l) (fun j work => let* f := fillSon2 k j l in Ok (work ++ f.2 ++ [-1])) [NORM_POLYHED] = Ok (NORM_POLYHED :: joined (solid_faces (t, l)) ++ [-1]) /\
  (getNumberOfSons2 k l * zlen l + 1 <? zlen (NORM_POLYHED :: joined (solid_faces (t, l)) ++ [-1])) = false.
Proof.
  intros Ht Hl. pose proof (len_nat _ _ Hl) as Hl'.
  apply elem_of_cons in Ht as [->|Ht]; [destruct l as [|? [|? [|? [|? [|]]]]]; try discriminate Hl'; eexists; split; [reflexivity|split; reflexivity]|].
  apply elem_of_cons in Ht as [->|Ht]; [destruct l as [|? [|? [|? [|? [|? [|]]]]]]; try discriminate Hl'; eexists; split; [reflexivity|split; reflexivity]|].
  apply elem_of_cons in Ht as [->|Ht]; [destruct l as [|? [|? [|? [|? [|? [|? [|]]]]]]]; try discriminate Hl'; eexists; split; [reflexivity|split; reflexivity]|].
  apply elem_of_cons in Ht as [->|Ht]; [destruct l as [|? [|? [|? [|? [|? [|? [|? [|? [|]]]]]]]]]; try discriminate Hl'; eexists; split; [reflexivity|split; reflexivity]|].
  apply elem_of_cons in Ht as [->|Ht]; [|by apply elem_of_nil in Ht].
  destruct l as [|? [|? [|? [|? [|? [|? [|? [|? [|? [|? [|? [|? [|]]]]]]]]]]]]]; try discriminate Hl'; eexists; split; [reflexivity|split; reflexivity].
Qed.
Lemma marks_ok n ids : forall d, zlen d = n -> (forall i, i ∈ ids -> 0 <= i < n) -> exists d', foldM (fun done id => if (0 <=? id) && (id <? n) then wr done id true else Throw) ids d = Ok d' /\ zlen d' = n /\
  forall i b, d @ i = Some b -> d' @ i = Some (b || bool_decide (i ∈ ids)).
Proof.
  induction ids as [|id ids IH]; intros d Hd Hi.
  { exists d. split; [done|]. split; [done|]. intros i b ->. rewrite bool_decide_false by apply not_elem_of_nil. by rewrite orb_false_r. }
  pose proof (Hi id ltac:(left)). cbn [foldM]. replace ((0 <=? id) && (id <? n)) with true by lia. rewrite wr_ok by lia. cbn [bind]. destruct (IH (zset d id true)) as (d' & E & Hl & Hd'); [by rewrite zlen_zset|intros; apply Hi; by right|].
  exists d'. split; [done|]. split; [done|]. intros i b Hb. pose proof (zlook_Some_lt _ _ _ Hb) as Hib. destruct (decide (i = id)) as [->|Hne].
  - rewrite (Hd' id true) by (rewrite zlook_zset by lia; by rewrite Z.eqb_refl). rewrite (bool_decide_true (id ∈ id :: ids)) by left. by rewrite orb_true_r.
  - rewrite (Hd' i b) by (rewrite zlook_zset by lia; by replace (i =? id) with false by lia). do 2 f_equal. apply bool_decide_ext. set_solver.
Qed.
Definition solidPoly (c : cell) : cell := if c.1 =? NORM_POLYHED then c else (NORM_POLYHED, joined (solid_faces c)).
Lemma joined_eq fs : joined fs = polyhedron fs.
Proof. induction fs as [|f [|g fs] IH]; [done|done|]. change (f ++ -1 :: joined (g :: fs) = f ++ -1 :: polyhedron (g :: fs)). by rewrite IH. Qed.
Lemma joined_end fs : fs <> [] -> joined fs ++ [-1] = concat ((fun f => f ++ [-1]) <$> fs).
Proof.
  induction fs as [|f [|g fs] IH]; intros H; [done|cbn; by rewrite app_nil_r|]. change (joined (f :: g :: fs)) with (f ++ -1 :: joined (g :: fs)). rewrite fmap_cons. cbn [concat]. rewrite <- IH by done. by rewrite <- !app_assoc.
Qed.
(** The buffer is too small by one for a polyhedron with one face. *)
Lemma poly_work fs : fs <> [] -> (forall f, f ∈ fs -> -1 ∉ f) -> getNumberOfSons2 cm_POLYHED (joined fs) = zlen fs /\
  forZ 0 (zlen fs) (fun j work => let* f := fillSon2 cm_POLYHED j (joined fs) in Ok (work ++ f.2 ++ [-1])) [NORM_POLYHED] = Ok (NORM_POLYHED :: joined fs ++ [-1]) /\
  (zlen fs * zlen (joined fs) + 1 <? zlen (NORM_POLYHED :: joined fs ++ [-1])) = (zlen fs =? 1).
Proof.
  intros Hne Hsep. destruct (polyhedron_ok fs Hne Hsep cm_POLYHED eq_refl) as [H1 H2]. rewrite <- joined_eq in *. split; [done|]. split.
  - rewrite joined_end by done. pose (st := fun pre : list (list Z) => NORM_POLYHED :: concat ((fun f => f ++ [-1]) <$> pre)).
    change (forZ 0 (zlen fs) (fun j work => let* f := fillSon2 cm_POLYHED j (joined fs) in Ok (work ++ f.2 ++ [-1])) (st []) = Ok (st fs)). apply (forZ_blocks _ st _ fs eq_refl). intros pre f post E. destruct (H2 (zlen pre) f) as [-> _]; [rewrite E; apply mid_at|].
    cbn [bind snd]. unfold st. rewrite fmap_app, concat_app. cbn [fmap list_fmap concat]. by rewrite app_nil_r.
  - rewrite zlen_cons, zlen_app. change (zlen [-1]) with 1. destruct fs as [|f [|g fs]]; [done| |].
    + change (zlen [f]) with 1. lia.
    + assert (1 <= zlen (joined (f :: g :: fs))) by (change (joined (f :: g :: fs)) with (f ++ -1 :: joined (g :: fs)); rewrite zlen_app, zlen_cons; pose proof (zlen_nonneg f); pose proof (zlen_nonneg (joined (g :: fs))); lia).
      rewrite !zlen_cons. pose proof (zlen_nonneg fs). assert (2 * zlen (joined (f :: g :: fs)) <= (zlen fs + 1 + 1) * zlen (joined (f :: g :: fs))) by (apply Z.mul_le_mono_nonneg_r; lia). lia.
Qed.
Lemma cell_work c : (c.1 ∈ [NORM_TETRA4; NORM_PYRA5; NORM_PENTA6; NORM_HEXA8; NORM_HEXGP12] /\ zlen c.2 = size_of c.1 \/ exists fs, c = (NORM_POLYHED, joined fs) /\ 2 <= zlen fs /\ forall f, f ∈ fs -> -1 ∉ f) -> as_poly c (solidPoly c) /\ exists k, GetCellModel c.1 = Ok k /\
  forZ 0 (getNumberOfSons2 k c.2) (fun j work => let* f := fillSon2 k j c.2 in Ok (work ++ f.2 ++ [-1])) [NORM_POLYHED] = Ok (pk (solidPoly c) ++ [-1]) /\ (getNumberOfSons2 k c.2 * zlen c.2 + 1 <? zlen (pk (solidPoly c) ++ [-1])) = false.
Proof.
  intros [[H1 H2]|(fs & -> & H2 & H3)].
  - destruct (solid_work c.1 c.2 H1 H2) as (k & Ek & Ew & Eu). assert (solidPoly c = (NORM_POLYHED, joined (solid_faces c))) as E.
    { unfold solidPoly. destruct (Z.eqb_spec c.1 NORM_POLYHED) as [E|E]; [|done]. exfalso. rewrite E in H1. rewrite !elem_of_cons, elem_of_nil in H1. decompose [or] H1; done. }
    rewrite E. split; [right; left; done|]. exists k. split; [done|]. destruct c as [t l]. done.
  - destruct (poly_work fs) as (A & B & C); [by intros ->|done|]. split; [right; right; done|]. exists cm_POLYHED. split; [done|]. cbn [fst snd]. change (solidPoly (NORM_POLYHED, joined fs)) with (NORM_POLYHED, joined fs). rewrite A. split; [done|]. unfold pk. cbn [fst snd app]. rewrite C. lia.
Qed.
Lemma poly_ok m ids cells : um_dim m = 2 \/ um_dim m = 3 -> um_coords m <> None -> stores m cells -> typed m cells -> (forall i, i ∈ ids -> 0 <= i < zlen cells) ->
  (forall i c, i ∈ ids -> cells @ i = Some c -> poly_able (um_dim m) c) ->
  exists m' cells', convertToPolyTypes m ids = Ok m' /\ made_poly ids cells cells' /\ stores m' cells' /\ typed m' cells' /\ um_dim m' = um_dim m /\ um_coords m' = um_coords m.
Proof.
  intros Hd Hco Hs Ht Hin Hk. destruct (stores_get m cells Hs) as (conn & connI & Ec & EI & Hsky & _). unfold convertToPolyTypes, checkFullyDefined. rewrite Ec, EI. destruct (um_coords m) as [co|] eqn:Eco; [|done]. unfold ifthrow.
  replace ((um_dim m <? 2) || (3 <? um_dim m)) with false by lia. rewrite (numCells_ok m cells Hs). cbn [bind]. unfold poly_able in Hk. destruct (Z.eqb_spec (um_dim m) 2) as [H2|H2].
  { destruct (plane_fold (zlen cells) connI ids cells conn eq_refl Hsky Hin Hk) as (conn' & cells' & -> & Hs' & Hm). cbn [bind]. destruct (sky_eq _ _ _ Hs') as [-> ->]. destruct (setConn_ok m cells') as (m' & -> & A & B & C & D). exists m', cells'. rewrite <- Eco. done. }
  destruct (marks_ok (zlen cells) ids (replicate (Z.to_nat (zlen cells)) false)) as (d & -> & Hdl & Hdv); [pose proof (zlen_nonneg cells); unfold zlen at 1; rewrite replicate_length; lia|done|]. cbn [bind].
  pose (cells' := imap (fun n c => if bool_decide (Z.of_nat n ∈ ids) then solidPoly c else c) cells).
  assert (forall i c, cells @ i = Some c -> cells' @ i = Some (if bool_decide (i ∈ ids) then solidPoly c else c)) as Hl'.
  { intros i c Hc. pose proof (zlook_Some_lt _ _ _ Hc) as Hi. rewrite zlook_to_nat in Hc |- * by lia. unfold cells'. rewrite list_lookup_imap, Hc. cbn. by rewrite Z2Nat.id by lia. }
  assert (zlen cells' = zlen cells) as HL by (unfold zlen, cells'; by rewrite imap_length).
  assert (made_poly ids cells cells') as Hm.
  { split; [done|]. intros i c c' H1 H3. rewrite (Hl' _ _ H1) in H3. injection H3 as <-. split; intros Hi; [rewrite bool_decide_true by done|by rewrite bool_decide_false by done]. by apply cell_work, (Hk i c). }
  match goal with |- context [forZ 0 (zlen cells) ?f ?s0] => assert (wp (forZ 0 (zlen cells) f s0) (fun s => s = packed cells') False) as HW end.
  { apply (wp_forZ (fun i s => s = packed (take (Z.to_nat i) cells'))); [apply zlen_nonneg|done| |].
    - intros i s Hi ->. destruct (zlook_lt cells i Hi) as [c Hc]. destruct (read_cell cells conn connI Hsky i c Hc) as (a & H1 & H3 & H4 & H5 & H6 & _). rewrite H1. cbn [bind]. rewrite H3. cbn [bind]. rewrite (take_snoc_z cells' i _ (Hl' _ _ Hc)).
      rewrite (rd_ok d i (bool_decide (i ∈ ids))) by (rewrite (Hdv i false) by (apply zlook_replicate; lia); done). cbn [bind]. replace (a + 1 + zlen c.2 - a - 1) with (zlen c.2) by lia. replace (a + 1 + zlen c.2 - a) with (1 + zlen c.2) by lia.
      destruct (bool_decide (i ∈ ids)) eqn:Eb.
      + apply bool_decide_eq_true in Eb. destruct (cell_work c (Hk i c Eb Hc)) as (_ & k & Ek & Ew & Eu). rewrite H4. cbn [bind]. rewrite Ek. cbn [bind]. rewrite H5 by (pose proof (zlen_nonneg c.2); lia).
        replace (take (Z.to_nat (zlen c.2)) c.2) with c.2 by (symmetry; apply take_ge; unfold zlen; lia). cbn [bind]. rewrite Ew. cbn [bind]. rewrite Eu. cbn [ubif].
        set (w := pk (solidPoly c)). replace (Z.to_nat (zlen (w ++ [-1]) - 1)) with (length w) by (unfold zlen; rewrite app_length; cbn [length]; lia). rewrite take_app. unfold w. by rewrite push_pk.
      + rewrite H6. cbn [bind]. by rewrite push_pk.
    - intros s ->. rewrite take_ge by (unfold zlen in *; lia). done. }
  apply wp_ok in HW as (s & -> & ->). cbn [bind]. unfold packed. cbn [fst snd]. destruct (setConn_ok m cells') as (m' & -> & A & B & C & D). exists m', cells'. rewrite <- Eco. done.
Qed.
Lemma poly_all m cells : um_dim m = 2 \/ um_dim m = 3 -> um_coords m <> None -> stores m cells -> typed m cells -> (forall c, c ∈ cells -> poly_able (um_dim m) c) ->
  exists m' cells', convertAllToPoly m = Ok m' /\ Forall2 as_poly cells cells' /\ stores m' cells' /\ typed m' cells' /\ um_dim m' = um_dim m /\ um_coords m' = um_coords m.
Proof.
  intros Hd Hco Hs Ht Hk. unfold convertAllToPoly. rewrite (numCells_ok m cells Hs). cbn [bind].
  destruct (poly_ok m (seqZ 0 (zlen cells)) cells Hd Hco Hs Ht) as (m' & cells' & E & [Hl Hm] & H); [intros i Hi; apply elem_of_seqZ in Hi; lia|intros i c _ Hc; apply Hk; by eapply zlook_elem|].
  exists m', cells'. split; [done|]. split; [|done]. apply Forall2_same_length_lookup_2; [unfold zlen in Hl; lia|]. intros i c c' H1 H2. rewrite <- zlook_nat in H1, H2. apply (Hm _ _ _ H1 H2). apply elem_of_seqZ. pose proof (zlook_Some_lt _ _ _ H1). lia.
Qed.
Lemma usual_back dim c c' : usual dim c -> as_poly c c' -> poly_able dim c /\ unpolyzed c' c.
Proof.
  destruct c as [t l]. unfold usual, poly_able. destruct (Z.eqb_spec dim 2) as [->|Hd].
  - cbn [fst snd]. intros Hin Hp. rewrite !elem_of_cons, elem_of_nil in Hin. unfold as_poly in Hp. cbn [fst snd] in Hp.
    destruct Hin as [[= -> Hl]|[[= -> Hl]|[[= -> Hl]|[[= -> Hl]|Hf]]]]; try done;
      (split; [eexists; split; [reflexivity|done]|]); (destruct Hp as [(k & Hk & _ & ->)|[[Hx _]|[Hx _]]]; [injection Hk as <-|exfalso; rewrite !elem_of_cons, elem_of_nil in Hx; decompose [or] Hx; done|done]); unfold unpolyzed; cbn [fst snd]; rewrite Hl; [by left|by left|right; by left|right; by left].
  - intros (H1 & H2 & H3 & H4) Hp. split; [by left|]. destruct Hp as [(k & Hk & Hdim & _)|[[_ ->]|[Hx _]]].
    + exfalso. cbn [fst] in *. rewrite !elem_of_cons, elem_of_nil in H1. decompose [or] H1; subst; try done; injection Hk as <-; done.
    + right; right; left. exists t, l. done.
    + exfalso. cbn [fst] in *. subst t. rewrite !elem_of_cons, elem_of_nil in H1. decompose [or] H1; done.
Qed.
Lemma usual_able dim c : usual dim c -> poly_able dim c.
Proof.
  destruct c as [t l]. unfold usual, poly_able. destruct (Z.eqb_spec dim 2) as [->|Hd]; [|intros (H1 & H2 & _); by left]. cbn [fst snd]. intros Hin. rewrite !elem_of_cons, elem_of_nil in Hin.
  destruct Hin as [[= -> Hl]|[[= -> Hl]|[[= -> Hl]|[[= -> Hl]|Hf]]]]; try done; (eexists; split; [reflexivity|done]).
Qed.
Lemma round_ok m cells : um_dim m = 2 \/ um_dim m = 3 -> um_coords m <> None -> stores m cells -> typed m cells -> Forall (usual (um_dim m)) cells ->
  exists m1 m2 b, convertAllToPoly m = Ok m1 /\ unPolyze m1 = Ok (m2, b) /\ stores m2 cells /\ typed m2 cells /\ um_dim m2 = um_dim m /\ um_coords m2 = um_coords m.
Proof.
  intros Hd Hco Hs Ht Hu. destruct (poly_all m cells Hd Hco Hs Ht) as (m1 & cells' & E & Hf & Hs1 & Ht1 & Hd1 & Hc1).
  { intros c Hc. apply usual_able. by eapply Forall_forall in Hu. }
  assert (Forall2 unpolyzed cells' cells) as Hun.
  { clear -Hf Hu. induction Hf as [|c c' cells cells' H Hf IH]; [done|]. apply Forall_cons in Hu as [H1 H2]. constructor; [by eapply usual_back|by apply IH]. }
  destruct (unpolyze_mesh m1 cells' cells) as (m2 & b & E2 & _ & H1 & H2 & H3 & H4); [rewrite Hd1; lia|by rewrite Hc1|done|done|done|]. exists m1, m2, b. rewrite <- Hd1, <- Hc1. done.
Qed.
Lemma poly_bad_dim m ids : um_dim m <> 2 -> um_dim m <> 3 -> convertToPolyTypes m ids = Throw.
Proof. intros H2 H3. unfold convertToPolyTypes, checkFullyDefined. destruct (um_connI m), (um_conn m), (um_coords m); try done. unfold ifthrow. by replace ((um_dim m <? 2) || (3 <? um_dim m)) with true by lia. Qed.
Lemma foldM_split {A St} (f : St -> A -> res St) (l k : list A) s : foldM f (l ++ k) s = bind (foldM f l s) (foldM f k).
Proof. revert s. induction l as [|x l IH]; intros s; [done|]. cbn [app foldM]. destruct (f s x); cbn [bind]; [apply IH|done..]. Qed.
Lemma poly_bad_id m ids id rest cells : um_dim m = 2 \/ um_dim m = 3 -> um_coords m <> None -> stores m cells -> (forall i, i ∈ ids -> 0 <= i < zlen cells) ->
  (forall i c, i ∈ ids -> cells @ i = Some c -> poly_able (um_dim m) c) -> ~ 0 <= id < zlen cells -> convertToPolyTypes m (ids ++ id :: rest) = Throw.
Proof.
  intros Hd Hco Hs Hin Hk Hid. destruct (stores_get m cells Hs) as (conn & connI & Ec & EI & Hsky & _). unfold convertToPolyTypes, checkFullyDefined. rewrite Ec, EI. destruct (um_coords m) as [co|] eqn:Eco; [|done]. unfold ifthrow.
  replace ((um_dim m <? 2) || (3 <? um_dim m)) with false by lia. rewrite (numCells_ok m cells Hs). cbn [bind]. unfold poly_able in Hk. destruct (Z.eqb_spec (um_dim m) 2) as [H2|H2]; rewrite foldM_split.
  - destruct (plane_fold (zlen cells) connI ids cells conn eq_refl Hsky Hin Hk) as (conn' & cells' & -> & _). cbn [bind foldM]. by replace ((0 <=? id) && (id <? zlen cells)) with false by lia.
  - destruct (marks_ok (zlen cells) ids (replicate (Z.to_nat (zlen cells)) false)) as (d & -> & _); [pose proof (zlen_nonneg cells); unfold zlen at 1; rewrite replicate_length; lia|done|]. cbn [bind foldM]. by replace ((0 <=? id) && (id <? zlen cells)) with false by lia.
Qed.
(** A polyhedron with one face only. *)
Lemma one_face m cells ids i f : um_dim m = 3 -> um_coords m <> None -> stores m cells -> (forall j, j ∈ ids -> 0 <= j < zlen cells) -> i ∈ ids ->
  (forall j c, j ∈ ids -> j < i -> cells @ j = Some c -> poly_able 3 c) -> cells @ i = Some (NORM_POLYHED, f) -> -1 ∉ f -> convertToPolyTypes m ids = UB.
Proof.
  intros Hd Hco Hs Hin Hi Hk Hf Hsep. destruct (stores_get m cells Hs) as (conn & connI & Ec & EI & Hsky & _). unfold convertToPolyTypes, checkFullyDefined. rewrite Ec, EI. destruct (um_coords m) as [co|]; [|done]. unfold ifthrow. rewrite Hd. change ((3 <? 2) || (3 <? 3)) with false. change (3 =? 2) with false. rewrite (numCells_ok m _ Hs). cbn [bind].
  destruct (marks_ok (zlen cells) ids (replicate (Z.to_nat (zlen cells)) false)) as (d & -> & Hdl & Hdv); [pose proof (zlen_nonneg cells); unfold zlen at 1; rewrite replicate_length; lia|done|]. cbn [bind].
  pose proof (zlook_Some_lt _ _ _ Hf) as Hil.
  match goal with |- context [forZ 0 (zlen cells) ?b ?s0] => assert (exists s, forZ 0 i b s0 = Ok s) as [s E] end.
  { match goal with |- exists s, ?r = Ok s => enough (wp r (fun _ => True) False) as HW by (apply wp_ok in HW as (s & -> & _); by exists s) end.
    apply (wp_forZ (fun j s => exists cs, s = packed cs)); [lia|by exists []| |done].
    intros j s Hj [cs ->]. destruct (zlook_lt cells j ltac:(lia)) as [c Hc]. destruct (read_cell cells conn connI Hsky j c Hc) as (a & H1 & H3 & H4 & H5 & H6 & _). rewrite H1. cbn [bind]. rewrite H3. cbn [bind].
    rewrite (rd_ok d j (bool_decide (j ∈ ids))) by (rewrite (Hdv j false) by (apply zlook_replicate; lia); done). cbn [bind]. replace (a + 1 + zlen c.2 - a - 1) with (zlen c.2) by lia. replace (a + 1 + zlen c.2 - a) with (1 + zlen c.2) by lia.
    destruct (bool_decide (j ∈ ids)) eqn:Eb.
    + apply bool_decide_eq_true in Eb. destruct (cell_work c) as (_ & k & Ek & Ew & Eu); [exact (Hk j c Eb ltac:(lia) Hc)|]. rewrite H4. cbn [bind]. rewrite Ek. cbn [bind]. rewrite H5 by (pose proof (zlen_nonneg c.2); lia).
      replace (take (Z.to_nat (zlen c.2)) c.2) with c.2 by (symmetry; apply take_ge; unfold zlen; lia). cbn [bind]. rewrite Ew. cbn [bind]. rewrite Eu. cbn [ubif].
      set (w := pk (solidPoly c)). replace (Z.to_nat (zlen (w ++ [-1]) - 1)) with (length w) by (unfold zlen; rewrite app_length; cbn [length]; lia). rewrite take_app. unfold w. rewrite push_pk. cbn. by eexists.
    + rewrite H6. cbn [bind]. rewrite push_pk. cbn. by eexists. }
  unfold forZ in E |- *. rewrite Z.sub_0_r in *. replace (zlen cells) with (i + (zlen cells - i)) at 1 by lia. rewrite seqZ_app by lia. rewrite foldM_split, E. cbn [bind]. rewrite seqZ_cons by lia. cbn [foldM]. rewrite Z.add_0_l.
  destruct (read_cell cells conn connI Hsky i _ Hf) as (a & H1 & H3 & H4 & H5 & H6 & _). rewrite H1. cbn [bind]. rewrite H3. cbn [bind]. rewrite (rd_ok d i true) by (rewrite (Hdv i false) by (apply zlook_replicate; lia); by rewrite bool_decide_true). cbn [bind]. rewrite H4. cbn [bind fst snd] in *. change (GetCellModel NORM_POLYHED) with (Ok cm_POLYHED). cbn [bind].
  replace (a + 1 + zlen f - a - 1) with (zlen f) by lia. rewrite H5 by (pose proof (zlen_nonneg f); lia). replace (take (Z.to_nat (zlen f)) f) with f by (symmetry; apply take_ge; unfold zlen; lia). cbn [bind].
  destruct (poly_work [f]) as (A & B & C); [done|intros g Hg; apply elem_of_list_singleton in Hg as ->; done|]. change (joined [f]) with f in *. rewrite A. change (zlen [f]) with 1 in *. unfold forZ in B. rewrite B. cbn [bind]. rewrite C. done.
Qed.
