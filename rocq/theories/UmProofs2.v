From Coq Require Import QArith ZifyBool ZifyNat.
From stdpp Require Import gmap.
From Verif Require Import Base DataArray ArrLib FillLib IndexSpec IndexProofs4 SkySpec SkyProofs SkyProofs4 CellTable UmModel UmSpec UmProofs.
Local Open Scope Z_scope.

(** * Rewriting the nodes in place *)
Fixpoint mapR {A B} (f : A -> res B) (l : list A) : res (list B) := match l with [] => Ok [] | x :: r => let* y := f x in let* t := mapR f r in Ok (y :: t) end.
Lemma mapR_ok {A B} (f : A -> res B) g l : (forall x, x ∈ l -> f x = Ok (g x)) -> mapR f l = Ok (g <$> l).
Proof. induction l as [|x r IH]; intros H; [done|]. cbn [mapR]. rewrite H by left. cbn [bind]. rewrite IH by (intros; apply H; by right). done. Qed.
Lemma mapR_throw {A B} (f : A -> res B) l : (forall x, x ∈ l -> f x = Throw \/ exists y, f x = Ok y) -> (exists x, x ∈ l /\ f x = Throw) -> mapR f l = Throw.
Proof.
  induction l as [|x r IH]; intros H [y [Hy Ht]]; [by apply elem_of_nil in Hy|]. cbn [mapR]. destruct (H x) as [->|[z Hz]]; [left|done|]. rewrite Hz. cbn [bind].
  rewrite IH; [done|intros; apply H; by right|]. apply elem_of_cons in Hy as [->|Hy]; [congruence|]. eauto.
Qed.
Definition fsep (f : Z -> res Z) (v : Z) : res Z := if 0 <=? v then f v else Ok v.
Lemma rew_inner f P ns R : forZ (zlen P) (zlen P + zlen ns) (fun j c => let* node := rd c j in if 0 <=? node then (let* w := f node in wr c j w) else Ok c) (P ++ ns ++ R)
  = let* l := mapR (fsep f) ns in Ok (P ++ l ++ R).
Proof.
  revert P. induction ns as [|v ns IH]; intros P; [apply forZ_empty; rewrite zlen_nil; lia|]. rewrite zlen_cons. pose proof (zlen_nonneg ns). rewrite forZ_step by lia.
  rewrite (rd_ok _ _ v) by (rewrite zlook_app_r by lia; rewrite Z.sub_diag; done). cbn [bind mapR]. unfold fsep at 1.
  assert (N : forall w, forZ (zlen P + 1) (zlen P + (1 + zlen ns)) (fun j c => let* node := rd c j in if 0 <=? node then (let* w := f node in wr c j w) else Ok c) (P ++ (w :: ns) ++ R)
     = let* l := mapR (fsep f) ns in Ok (P ++ (w :: l) ++ R)).
  { intros w. specialize (IH (P ++ [w])). rewrite zlen_app in IH. change (zlen [w]) with 1 in IH. rewrite <- app_assoc in IH. replace (zlen P + (1 + zlen ns)) with (zlen P + 1 + zlen ns) by lia.
    etransitivity; [exact IH|]. destruct (mapR _ ns); cbn [bind]; try done. rewrite <- app_assoc. done. }
  destruct (0 <=? v) eqn:Ev.
  - destruct (f v) as [w| | |]; cbn [bind]; try done. rewrite wr_ok by (rewrite !zlen_app, zlen_cons; pose proof (zlen_nonneg P); pose proof (zlen_nonneg R); lia). cbn [bind].
    assert (E : zset (P ++ (v :: ns) ++ R) (zlen P) w = P ++ (w :: ns) ++ R).
    { pose proof (zlen_nonneg P). pose proof (zlen_nonneg R). apply zlook_ext. intros k. rewrite zlook_zset by (rewrite !zlen_app, zlen_cons; lia). destruct (Z.eqb_spec k (zlen P)) as [->|Hk].
      - rewrite zlook_app_r by lia. rewrite Z.sub_diag. done.
      - destruct (decide (k < zlen P)); [rewrite !zlook_app_l by lia; done|]. rewrite (zlook_app_r P ((v :: ns) ++ R)) by lia. rewrite (zlook_app_r P ((w :: ns) ++ R)) by lia. change ((v :: ns) ++ R) with (v :: (ns ++ R)). change ((w :: ns) ++ R) with (w :: (ns ++ R)). rewrite !zlook_cons.
        replace (k - zlen P =? 0) with false by lia. done. }
    rewrite E, N. destruct (mapR (fsep f) ns); cbn [bind]; reflexivity.
  - cbn [bind]. rewrite N. destruct (mapR (fsep f) ns); cbn [bind]; reflexivity.
Qed.
Definition mapcell (f : Z -> res Z) (c : cell) : res cell := let* l := mapR (fsep f) c.2 in Ok (c.1, l).
Lemma rew_outer f P cells connI k : starts connI k (zlen P) cells ->
  forZ k (k + zlen cells) (fun i c => let* a := rd connI i in let* b := rd connI (i + 1) in
    ub_if (b <? a + 1) >>> forZ (a + 1) b (fun j c => let* node := rd c j in if 0 <=? node then (let* w := f node in wr c j w) else Ok c) c) (P ++ concat (pk <$> cells))
  = let* l := mapR (mapcell f) cells in Ok (P ++ concat (pk <$> l)).
Proof.
  revert P k. induction cells as [|c r IH]; intros P k Hs; [apply forZ_empty; rewrite zlen_nil; lia|]. rewrite zlen_cons. pose proof (zlen_nonneg r). rewrite forZ_step by lia.
  destruct Hs as [H1 H2]. rewrite (rd_ok _ _ _ H1). cbn [bind]. rewrite (rd_ok _ _ _ (starts_hd _ _ _ _ H2)). cbn [bind]. replace (_ <? _) with false by (pose proof (zlen_nonneg c.2); lia). unfold ubif.
  rewrite fmap_cons. cbn [concat mapR]. unfold pk at 1.
  pose proof (rew_inner f (P ++ [c.1]) c.2 (concat (pk <$> r))) as Hi. rewrite zlen_app in Hi. change (zlen [c.1]) with 1 in Hi.
  replace (P ++ (c.1 :: c.2) ++ concat (pk <$> r)) with ((P ++ [c.1]) ++ c.2 ++ concat (pk <$> r)) by (by rewrite <- !app_assoc). rewrite Hi. unfold mapcell at 1.
  assert (Lm : forall (l l' : list Z), mapR (fsep f) l = Ok l' -> zlen l' = zlen l).
  { clear. induction l as [|x l IH]; intros l' E; cbn [mapR] in E; [by injection E as <-|]. destruct (fsep f x); cbn [bind] in E; try done. destruct (mapR _ l) eqn:E2; cbn [bind] in E; try done. injection E as <-. rewrite !zlen_cons. erewrite IH; done. }
  destruct (mapR (fsep f) c.2) as [l| | |] eqn:El; cbn [bind]; try done. apply Lm in El.
  specialize (IH (P ++ pk (c.1, l)) (k + 1)). rewrite zlen_app, zlen_pk in IH. cbn [snd] in IH. rewrite El in IH. replace (zlen P + 1 + zlen c.2) with (zlen P + (1 + zlen c.2)) in H2 by lia. specialize (IH H2).
  replace (k + (1 + zlen r)) with (k + 1 + zlen r) by lia. replace ((P ++ [c.1]) ++ l ++ concat (pk <$> r)) with ((P ++ pk (c.1, l)) ++ concat (pk <$> r)) by (unfold pk; rewrite <- !app_assoc; done).
  etransitivity; [exact IH|]. destruct (mapR (mapcell f) r); cbn [bind]; try done. rewrite fmap_cons. cbn [concat]. rewrite <- app_assoc. done.
Qed.
Lemma rewrite_eq f cells conn connI : skyline (pk <$> cells) conn connI -> rewriteNodes f conn connI (zlen cells) = let* l := mapR (mapcell f) cells in Ok (concat (pk <$> l)).
Proof. intros H. destruct (stored_starts _ _ _ H) as (Hs & -> & _). unfold rewriteNodes. apply (rew_outer f [] cells connI 0 Hs). Qed.
Lemma rename_len g c : zlen (pk (rename g c)) = zlen (pk c).
Proof. rewrite !zlen_pk. unfold rename. cbn [snd]. rewrite zlen_fmap. done. Qed.
Lemma rewrite_ok f g cells conn connI : skyline (pk <$> cells) conn connI -> (forall v, used cells v -> f v = Ok (g v)) ->
  exists conn', rewriteNodes f conn connI (zlen cells) = Ok conn' /\ skyline (pk <$> (rename g <$> cells)) conn' connI.
Proof.
  intros H Hf. rewrite (rewrite_eq f _ _ _ H). rewrite (mapR_ok _ (rename g)).
  - cbn [bind]. eexists. split; [done|]. split; [done|]. destruct H as [_ H]. replace (zlen <$> (pk <$> (rename g <$> cells))) with (zlen <$> (pk <$> cells)); [done|].
    clear. induction cells as [|c r IH]; [done|]. rewrite !fmap_cons, IH, rename_len. done.
  - intros c Hc. unfold mapcell. rewrite (mapR_ok _ (fun n => if 0 <=? n then g n else n)); [done|]. intros v Hv. unfold fsep. destruct (0 <=? v) eqn:E; [|done]. apply Hf. split; [lia|]. eauto.
Qed.
Lemma rewrite_throw f cells conn connI : skyline (pk <$> cells) conn connI -> (forall v, used cells v -> f v = Throw \/ exists w, f v = Ok w) -> (exists v, used cells v /\ f v = Throw) ->
  rewriteNodes f conn connI (zlen cells) = Throw.
Proof.
  intros H Hf (v & (Hv0 & c & Hc & Hv) & Ht). rewrite (rewrite_eq f _ _ _ H).
  assert (Hs : forall c v, c ∈ cells -> v ∈ c.2 -> fsep f v = Throw \/ exists w, fsep f v = Ok w).
  { intros c' v' Hc' Hv'. unfold fsep. destruct (0 <=? v') eqn:E; [|eauto]. apply Hf. split; [lia|]. eauto. }
  assert (Hm : forall c, c ∈ cells -> mapcell f c = Throw \/ exists w, mapcell f c = Ok w).
  { intros c' Hc'. unfold mapcell. assert (mapR (fsep f) c'.2 = Throw \/ exists w, mapR (fsep f) c'.2 = Ok w) as [->|[w ->]]; [|by left|right; cbn [bind]; eauto].
    specialize (Hs c'). revert Hs. generalize (c'.2). intros l Hl. assert (G : forall v, v ∈ l -> fsep f v = Throw \/ exists w, fsep f v = Ok w) by (intros; apply Hl; done). clear -G.
    induction l as [|x l IH]; cbn [mapR]; [right; eauto|]. destruct (G x) as [->|[w ->]]; [left|by left|]. cbn [bind]. destruct IH as [->|[t ->]]; [intros; apply G; by right|by left|right; cbn [bind]; eauto]. }
  rewrite mapR_throw; [done|exact Hm|]. exists c. split; [done|]. unfold mapcell. rewrite mapR_throw; [done|intros; by apply (Hs c)|]. exists v. split; [done|]. unfold fsep. replace (0 <=? v) with true by lia. done.
Qed.

(** * The methods on top of it *)
Lemma stores_get m cells : stores m cells -> exists conn connI, um_conn m = Some conn /\ um_connI m = Some connI /\ skyline (pk <$> cells) conn connI /\ zlen connI - 1 = zlen cells.
Proof. intros (conn & connI & H1 & H2 & H3). exists conn, connI. split; [done|]. split; [done|]. split; [done|]. destruct (stored_starts _ _ _ H3) as (_ & _ & H). lia. Qed.
Lemma numCells_ok m cells : stores m cells -> getNumberOfCells m = Ok (zlen cells).
Proof. intros H. destruct (stores_get _ _ H) as (conn & connI & H1 & H2 & H3 & H4). unfold getNumberOfCells. rewrite H2, H4. done. Qed.
Lemma typed_rename m m' cells g : um_types m' = um_types m -> typed m cells -> typed m' (rename g <$> cells).
Proof.
  intros E [Ha Ht]. unfold typed. rewrite E. split; [done|]. intros t. rewrite Ht. split.
  - intros (c & Hc & <-). exists (rename g c). split; [apply elem_of_list_fmap; eauto|done].
  - intros (c & Hc & <-). apply elem_of_list_fmap in Hc as (c' & -> & Hc'). exists c'. done.
Qed.
Lemma inConn_gen m cells f g : stores m cells -> (forall v, used cells v -> f v = Ok (g v)) ->
  exists m', checkConnectivityFullyDefined m (fun conn connI => let* n := getNumberOfCells m in let* conn := rewriteNodes f conn connI n in Ok (UM (um_dim m) (um_coords m) (Some conn) (Some connI) (um_types m))) = Ok m' /\
    stores m' (rename g <$> cells) /\ same_but_conn m m'.
Proof.
  intros H Hf. pose proof (numCells_ok _ _ H) as Hn. destruct (stores_get _ _ H) as (conn & connI & H1 & H2 & H3 & H4). unfold checkConnectivityFullyDefined. rewrite H1, H2, Hn. cbn [bind].
  destruct (rewrite_ok f g _ _ _ H3 Hf) as (conn' & -> & Hs). cbn [bind]. eexists. split; [done|]. split; [|done]. exists conn', connI. done.
Qed.
Lemma inConn_throw m cells f : stores m cells -> (forall v, used cells v -> f v = Throw \/ exists w, f v = Ok w) -> (exists v, used cells v /\ f v = Throw) ->
  checkConnectivityFullyDefined m (fun conn connI => let* n := getNumberOfCells m in let* conn := rewriteNodes f conn connI n in Ok (UM (um_dim m) (um_coords m) (Some conn) (Some connI) (um_types m))) = Throw.
Proof.
  intros H Hf Ht. pose proof (numCells_ok _ _ H) as Hn. destruct (stores_get _ _ H) as (conn & connI & H1 & H2 & H3 & H4). unfold checkConnectivityFullyDefined. rewrite H1, H2, Hn. cbn [bind].
  rewrite (rewrite_throw f _ _ _ H3 Hf Ht). done.
Qed.
Lemma renumberConn_ok m cells p : stores m cells -> (forall v, used cells v -> v < zlen p) ->
  exists m', renumberNodesInConn m p = Ok m' /\ stores m' (rename (fun v => default (-1) (p @ v)) <$> cells) /\ same_but_conn m m'.
Proof.
  intros H Hp. apply (inConn_gen m cells _ (fun v => default (-1) (p @ v)) H). intros v Hv. destruct (zlook_lt p v) as [w Hw]; [split; [apply Hv|by apply Hp]|]. rewrite Hw. cbn [default]. apply rd_ok, Hw.
Qed.
Lemma offset_ok m cells o : stores m cells -> exists m', renumberNodesWithOffsetInConn m o = Ok m' /\ stores m' (rename (fun v => v + o) <$> cells) /\ same_but_conn m m'.
Proof. intros H. apply (inConn_gen m cells _ (fun v => v + o) H). done. Qed.
Lemma mapConn_ok m cells (p : gmap Z Z) : stores m cells -> (forall v, used cells v -> is_Some (p !! v)) ->
  exists m', renumberNodesInConnT m p = Ok m' /\ stores m' (rename (fun v => default (-1) (p !! v)) <$> cells) /\ same_but_conn m m'.
Proof. intros H Hp. apply (inConn_gen m cells _ (fun v => default (-1) (p !! v)) H). intros v Hv. destruct (Hp v Hv) as [w ->]. done. Qed.
Lemma mapConn_throw m cells (p : gmap Z Z) : stores m cells -> renumberNodesInConnT m p = Throw <-> exists v, used cells v /\ p !! v = None.
Proof.
  intros H. split.
  - intros E. destruct (decide (Forall (fun c : cell => Forall (fun v => 0 <= v -> is_Some (p !! v)) c.2) cells)) as [Hd|Hd].
    + exfalso. assert (Hu : forall v, used cells v -> is_Some (p !! v)).
      { intros v (Hv & c & Hc & Hvc). rewrite Forall_forall in Hd. specialize (Hd c Hc). rewrite Forall_forall in Hd. auto. }
      destruct (mapConn_ok m cells p H Hu) as (m' & Em & _). congruence.
    + apply not_Forall_Exists in Hd; [|apply _]. apply Exists_exists in Hd as (c & Hc & Hd). apply not_Forall_Exists in Hd; [|apply _]. apply Exists_exists in Hd as (v & Hv & Hd).
      exists v. assert (0 <= v) by (destruct (decide (0 <= v)); [done|]; exfalso; apply Hd; intros; lia). split; [split; [done|]; eauto|]. apply eq_None_not_Some. intros ?. apply Hd. done.
  - intros (v & Hv & Hn). apply (inConn_throw m cells _ H); [|exists v; rewrite Hn; done]. intros w Hw. destruct (p !! w); eauto.
Qed.
