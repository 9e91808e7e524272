From Verif Require Import Base DataArray ArrLib FillLib RenumProofs LayoutProofs2 IndexSpec IndexProofs IndexProofs2 IndexProofs3 IndexProofs4 IndexProofs5 SearchSpec StdProofs SkyModel SkyProofs SkyProofs8 StrModel StrSpec StrProofs StrProofs2 ConnModel ConnSpec ConnProofs ConnProofs2 ConnProofs3.
From Coq Require Import ZifyBool ZifyNat.

(** ** Filling the connectivity *)
Lemma concat_same (w : Z) (ps : list (list Z)) : Forall (fun b => zlen b = w) ps -> zlen (concat ps) = w * zlen ps.
Proof. induction 1 as [|b ps Hb _ IH]; [change (0 = w * 0); lia|]. simpl concat. rewrite zlen_app, IH, zlen_cons. lia. Qed.
Lemma setCell_ok w m ps b pos : Forall (fun b => zlen b = w) ps -> zlen b = w -> pos = zlen ps -> w * zlen ps + w <= m -> setCell w pos b (ost m ps) = Ok (ost m (ps ++ [b])).
Proof.
  intros Hps Hb -> Hm. unfold setCell, ost. pose proof (concat_same _ _ Hps) as Hc. rewrite <- Hc, fill_cells by lia. cbn [bind]. rewrite concat_app1. done.
Qed.
Definition pushCell (w : Z) (s : list (option Z) * Z) (b : list Z) : res (list (option Z) * Z) :=
  let '(cp, pos) := s in let* cp := setCell w pos b cp in Ok (cp, pos + 1).
Lemma pushCells_ok w bs m : Forall (fun b => zlen b = w) bs -> m = w * zlen bs -> foldM (pushCell w) bs (malloc Z m, 0) = Ok (Some <$> concat bs, zlen bs).
Proof.
  intros Hb ->. set (m := w * zlen bs). set (stt := fun ps : list (list Z) => (ost m ps, zlen ps)).
  replace (malloc Z m, 0) with (stt []) by (unfold stt; rewrite <- ost_start; done). rewrite (foldM_blocks _ eq stt bs bs (Forall2_eq_refl bs)); unfold stt.
  - rewrite ost_end by (unfold m; rewrite (concat_same w); done). done.
  - intros pre x b post E ->. unfold pushCell. subst bs. apply Forall_app in Hb as [Hpre Hb]. inversion Hb; subst. pose proof (zlen_nonneg post). pose proof (zlen_nonneg b).
    rewrite (setCell_ok (zlen b)) by (try done; unfold m; rewrite zlen_app, zlen_cons; nia). cbn [bind]. rewrite zlen_app. done.
Qed.
Definition block (ngs cp : list Z) : list Z := corner_at ngs cp <$> conn_order (zlen ngs).
Definition blocks (ngs : list Z) : list (list Z) := block ngs <$> allpos (cells_st ngs).
Lemma block_len ngs cp : dim_ok ngs -> zlen (block ngs cp) = 2 ^ zlen ngs.
Proof. intros Hd. destruct (wp_length3 ngs Hd) as [(n & ->)|[(n & m & ->)|(n & m & o & ->)]]; done. Qed.
Lemma blocks_len ngs : Forall (Z.le 1) ngs -> zlen (blocks ngs) = grid_nb (cells_st ngs).
Proof. intros H. unfold blocks. rewrite zlen_fmap, allpos_len; [done|]. apply Forall_fmap. eapply Forall_impl; [exact H|]. intros; simpl in *; lia. Qed.
Lemma blocks_same ngs : dim_ok ngs -> Forall (fun b => zlen b = 2 ^ zlen ngs) (blocks ngs).
Proof. intros Hd. apply Forall_fmap, Forall_true. intros cp. by apply block_len. Qed.

Lemma corner1 a p x : corner_at [a] [p] [x] = p + x.
Proof. unfold corner_at. simpl. lia. Qed.
Lemma corner2 a b p q x y : corner_at [a; b] [p; q] [x; y] = p + x + a * (q + y).
Proof. unfold corner_at. simpl. lia. Qed.
Lemma corner3 a b c p q r x y z : corner_at [a; b; c] [p; q; r] [x; y; z] = p + x + a * (q + y + b * (r + z)).
Proof. unfold corner_at. simpl. lia. Qed.
Lemma build1_ok a : 1 <= a -> Build1GT1D a = Ok (concat (blocks [a])).
Proof.
  intros Ha. unfold Build1GT1D. rewrite alloc1 by lia. cbn [bind].
  assert (forZ 0 (a - 1) (fun i cp => setCell 2 i [i; i + 1] cp) (malloc Z (2 * (a - 1))) = Ok (Some <$> concat (blocks [a]))) as ->; [|cbn [bind]; apply initialised_ok].
  pose proof (blocks_same [a] ltac:(done)) as Hb. pose proof (blocks_len [a] ltac:(repeat constructor; lia)) as Hl. change (grid_nb (cells_st [a])) with ((a - 1) * 1) in Hl.
  assert (blocks [a] = (fun i => [i; i + 1]) <$> seqZ 0 (a - 1)) as Heq.
  { unfold blocks. change (cells_st [a]) with [a - 1]. cbn [allpos]. rewrite bind_cons. change ([] ≫= _) with (@nil (list Z)). rewrite app_nil_r, <- list_fmap_compose. apply list_fmap_ext. intros k i _. change ([corner_at [a] [i] [0]; corner_at [a] [i] [1]] = [i; i + 1]). rewrite !corner1. lists. }
  unfold forZ. rewrite Z.sub_0_r. rewrite (ost_start Z).
  rewrite (foldM_blocks _ (fun i b => b = [i; i + 1]) (ost (2 * (a - 1))) (seqZ 0 (a - 1)) (blocks [a])).
  - rewrite ost_end; [done|]. rewrite (concat_same 2) by done. lia.
  - rewrite Heq. apply Forall2_fmap_r. apply Forall_Forall2_diag, Forall_true. done.
  - intros pre i b post E ->. assert (blocks [a] @ zlen pre = Some [i; i + 1]) as Hi by (rewrite E, zlook_app_r, Z.sub_diag by lia; done).
    rewrite Heq, zlook_fmap in Hi. pose proof (zlen_nonneg pre). pose proof (zlen_nonneg post). assert (zlen (blocks [a]) = zlen pre + 1 + zlen post) as Hll by (rewrite E, zlen_app, zlen_cons; lia). rewrite zlook_seqZ in Hi by lia. simpl in Hi. injection Hi as Hi _.
    rewrite E in Hb. apply Forall_app in Hb as [Hpre _]. apply (setCell_ok 2); [done|done|lia|lia].
Qed.
Lemma build2_ok a b : 1 <= a -> 1 <= b -> Build1GT2D a b = Ok (concat (blocks [a; b])).
Proof.
  intros Ha Hb. unfold Build1GT2D. rewrite alloc1 by nia. cbn [bind].
  assert (Forall (Z.le 1) [a; b]) as H1 by (repeat constructor; done). pose proof (blocks_len [a; b] H1) as Hl. change (grid_nb (cells_st [a; b])) with ((a - 1) * ((b - 1) * 1)) in Hl.
  pose proof (pushCells_ok 4 (blocks [a; b]) (4 * (a - 1) * (b - 1)) (blocks_same [a; b] ltac:(done)) ltac:(lia)) as H.
  match goal with |- bind ?p _ = _ => assert (p = Ok (Some <$> concat (blocks [a; b]), zlen (blocks [a; b]))) as -> end; [|cbn [bind]; apply initialised_ok].
  rewrite <- H. unfold blocks. rewrite foldM_fmap_l. change (cells_st [a; b]) with [a - 1; b - 1]. cbn [allpos]. rewrite !foldM_mbind_l, foldM_one, foldM_fmap_l. unfold forZ at 1. rewrite Z.sub_0_r. apply foldM_ext. intros t j _. unfold forZ. rewrite Z.sub_0_r, foldM_fmap_l. apply foldM_ext. intros [cp pos] i _.
  unfold pushCell. match goal with |- bind (setCell _ _ ?x _) _ = bind (setCell _ _ ?y _) _ => assert (x = y) as ->; [|done] end.
  unfold block. change (conn_order (zlen [a; b])) with [[1; 0]; [0; 0]; [0; 1]; [1; 1]]. rewrite !fmap_cons, !corner2. change (_ <$> []) with (@nil Z). lists.
Qed.
Lemma build3_ok a b c : 1 <= a -> 1 <= b -> 1 <= c -> Build1GT3D a b c = Ok (concat (blocks [a; b; c])).
Proof.
  intros Ha Hb Hc. unfold Build1GT3D.
  assert (Forall (Z.le 1) [a; b; c]) as H1 by (repeat constructor; done). pose proof (blocks_len [a; b; c] H1) as Hl. change (grid_nb (cells_st [a; b; c])) with ((a - 1) * ((b - 1) * ((c - 1) * 1))) in Hl.
  rewrite alloc1 by (pose proof (zlen_nonneg (blocks [a; b; c])); nia). cbn [bind].
  pose proof (pushCells_ok 8 (blocks [a; b; c]) (8 * (a - 1) * (b - 1) * (c - 1)) (blocks_same [a; b; c] ltac:(done)) ltac:(lia)) as H.
  match goal with |- bind ?p _ = _ => assert (p = Ok (Some <$> concat (blocks [a; b; c]), zlen (blocks [a; b; c]))) as -> end; [|cbn [bind]; apply initialised_ok].
  rewrite <- H. unfold blocks. rewrite foldM_fmap_l. change (cells_st [a; b; c]) with [a - 1; b - 1; c - 1]. cbn [allpos]. rewrite !foldM_mbind_l, foldM_one, foldM_fmap_l. unfold forZ at 1. rewrite Z.sub_0_r. apply foldM_ext. intros t k _. unfold forZ at 1. rewrite Z.sub_0_r, foldM_fmap_l. apply foldM_ext. intros t' j _.
  unfold forZ. rewrite Z.sub_0_r, foldM_fmap_l. apply foldM_ext. intros [cp pos] i _. cbv zeta.
  unfold pushCell. match goal with |- bind (setCell _ _ ?x _) _ = bind (setCell _ _ ?y _) _ => assert (x = y) as ->; [|done] end.
  unfold block. change (conn_order (zlen [a; b; c])) with [[1; 0; 0]; [0; 0; 0]; [0; 1; 0]; [1; 1; 0]; [1; 0; 1]; [0; 0; 1]; [0; 1; 1]; [1; 1; 1]]. rewrite !fmap_cons, !corner3. change (_ <$> []) with (@nil Z). lists.
Qed.

(** ** Flat axes *)
Definition thick (ngs : list Z) : list Z := filter (fun n => 2 <= n) ngs.
Lemma zip_from z ngs : Forall (Z.le 1) ngs -> foldM (fun z elt => throw_if elt <? 1 >>> Ok (if 2 <=? elt then z ++ [elt] else z)) ngs z = Ok (z ++ thick ngs).
Proof.
  intros H. revert z. induction H as [|n ngs Hn _ IH]; intros z; [by rewrite app_nil_r|]. cbn [foldM]. replace (n <? 1) with false by lia. cbn [ifthrow bind]. rewrite IH. unfold thick. f_equal. destruct (2 <=? n) eqn:E.
  - rewrite (filter_cons_True _ n) by lia. rewrite <- app_assoc. done.
  - rewrite (filter_cons_False _ n) by lia. done.
Qed.
Lemma zip_ok ngs : grid_ok ngs -> ZipNodeStructure ngs = Ok (thick ngs).
Proof.
  intros [Hd H]. unfold dim_ok in Hd. unfold ZipNodeStructure. replace ((3 <? zlen ngs) || _) with false by lia. cbn [ifthrow]. by rewrite zip_from.
Qed.
Lemma zip_throw ngs : ~ grid_ok ngs -> ZipNodeStructure ngs = Throw.
Proof.
  intros H. unfold ZipNodeStructure. destruct ((3 <? zlen ngs) || (zlen ngs <? 1)) eqn:E; [done|]. cbn [ifthrow].
  assert (~ Forall (fun n => 1 <= n) ngs) as Hn. { intros Hf. apply H. split; [unfold dim_ok; lia|done]. } clear E H. assert (forall z, foldM (fun z elt => throw_if elt <? 1 >>> Ok (if 2 <=? elt then z ++ [elt] else z)) ngs z = Throw) as G; [|apply G]. induction ngs as [|n ngs IH]; intros z; [by destruct Hn; constructor|].
  cbn [foldM]. destruct (n <? 1) eqn:E; [done|]. cbn [ifthrow bind]. apply IH. intros Hf. apply Hn. constructor; [lia|done].
Qed.
Lemma thick_len ngs : zlen (thick ngs) <= zlen ngs.
Proof. unfold zlen, thick. pose proof (filter_length (fun n => 2 <= n) ngs). lia. Qed.
Lemma thick_ok ngs : Forall (Z.le 2) (thick ngs).
Proof. apply Forall_forall. intros n Hn. apply elem_of_list_filter in Hn. tauto. Qed.
(** The coordinates along the thick axes, and back. *)
Fixpoint flt (ngs pos : list Z) : list Z :=
  match ngs, pos with n :: ngs, p :: pos => if 2 <=? n then p :: flt ngs pos else flt ngs pos | _, _ => [] end.
Fixpoint expd (ngs pos : list Z) : list Z :=
  match ngs with [] => [] | n :: ngs => if 2 <=? n then match pos with p :: pos => p :: expd ngs pos | [] => [] end else 0 :: expd ngs pos end.
Lemma thick_cons n ngs : thick (n :: ngs) = if 2 <=? n then n :: thick ngs else thick ngs.
Proof. unfold thick. destruct (2 <=? n) eqn:E; [by rewrite filter_cons_True by lia|by rewrite filter_cons_False by lia]. Qed.
Lemma flt_node ngs pos : Forall (Z.le 1) ngs -> in_grid ngs pos -> in_grid (thick ngs) (flt ngs pos) /\ grid_id (thick ngs) (flt ngs pos) = grid_id ngs pos.
Proof.
  intros H Hg. induction Hg as [|n p ngs pos Hp Hg IH]; [split; [constructor|done]|]. inversion H; subst. destruct (IH ltac:(done)) as [IH1 IH2]. rewrite thick_cons. cbn [flt]. destruct (2 <=? n) eqn:E.
  - split; [constructor; done|]. cbn [grid_id]. lia.
  - split; [done|]. cbn [grid_id]. assert (n = 1) as -> by lia. lia.
Qed.
Lemma flt_cell ngs cp : Forall (Z.le 1) ngs -> in_grid (cell_axes ngs) cp -> in_grid (cells_st (thick ngs)) (flt ngs cp) /\ grid_id (cells_st (thick ngs)) (flt ngs cp) = grid_id (cell_axes ngs) cp.
Proof.
  revert cp. induction ngs as [|n ngs IH]; intros cp H Hg; inversion Hg as [|? p ? cp' Hp Hg']; subst; [split; [constructor|done]|]. inversion H; subst. destruct (IH cp' ltac:(done) ltac:(done)) as [IH1 IH2]. rewrite thick_cons. cbn [flt]. destruct (2 <=? n) eqn:E.
  - split; [constructor; [lia|done]|]. change (p + (n - 1) * grid_id (cells_st (thick ngs)) (flt ngs cp') = p + Z.max 1 (n - 1) * grid_id (cell_axes ngs) cp'). rewrite IH2. replace (Z.max 1 (n - 1)) with (n - 1) by lia. lia.
  - split; [done|]. change (grid_id (cells_st (thick ngs)) (flt ngs cp') = p + Z.max 1 (n - 1) * grid_id (cell_axes ngs) cp'). rewrite IH2. replace (Z.max 1 (n - 1)) with 1 by lia. lia.
Qed.
Lemma flt_corner ngs cp pos : Forall (Z.le 1) ngs -> in_grid (cell_axes ngs) cp -> in_grid ngs pos -> corner cp pos <-> corner (flt ngs cp) (flt ngs pos).
Proof.
  revert cp pos. induction ngs as [|n ngs IH]; intros cp pos H Hc Hg; inversion Hc as [|? c ? cp' Hc0 Hc']; inversion Hg as [|? p ? pos' Hp Hg']; subst; [split; constructor|]. inversion H; subst. specialize (IH cp' pos' ltac:(done) ltac:(done) ltac:(done)). cbn [flt]. destruct (2 <=? n) eqn:E.
  - split; intros Hx; inversion Hx; subst; constructor; try done; apply IH; done.
  - split; [intros Hx; inversion Hx; subst; by apply IH|]. intros Hx. constructor; [lia|]. by apply IH.
Qed.
Lemma expd_ok ngs pos : Forall (Z.le 1) ngs -> in_grid (thick ngs) pos -> in_grid ngs (expd ngs pos) /\ flt ngs (expd ngs pos) = pos.
Proof.
  revert pos. induction ngs as [|n ngs IH]; intros pos H Hg; [inversion Hg; subst; split; [constructor|done]|]. inversion H; subst. rewrite thick_cons in Hg. cbn [expd]. destruct (2 <=? n) eqn:E.
  - inversion Hg as [|? p ? pos' Hp Hg']; subst. destruct (IH pos' ltac:(done) ltac:(done)) as [IH1 IH2]. split; [constructor; done|]. cbn [flt]. rewrite E, IH2. done.
  - destruct (IH pos ltac:(done) ltac:(done)) as [IH1 IH2]. split; [constructor; [lia|done]|]. cbn [flt]. rewrite E, IH2. done.
Qed.
Lemma node_of_flat ngs cp n : Forall (Z.le 1) ngs -> in_grid (cell_axes ngs) cp -> node_of ngs cp n <-> node_of (thick ngs) (flt ngs cp) n.
Proof.
  intros H Hc. split.
  - intros (pos & Hg & -> & Hco). exists (flt ngs pos). destruct (flt_node ngs pos H Hg) as [? ?]. split; [done|]. split; [done|]. apply flt_corner; done.
  - intros (pos & Hg & -> & Hco). destruct (expd_ok ngs pos H Hg) as [Hg' Hf]. exists (expd ngs pos). split; [done|]. split.
    + destruct (flt_node ngs _ H Hg') as [_ He]. rewrite <- He, Hf. done.
    + apply (flt_corner ngs); [done..|]. rewrite Hf. done.
Qed.
