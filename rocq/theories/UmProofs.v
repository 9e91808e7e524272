From Coq Require Import QArith ZifyBool ZifyNat.
From stdpp Require Import gmap.
From Verif Require Import Base DataArray ArrLib FillLib IndexSpec IndexProofs4 SkySpec SkyProofs SkyProofs4 CellTable UmModel UmSpec.
Local Open Scope Z_scope.

(** * The loops over the nodes of the cells *)
Definition pk (c : cell) : list Z := c.1 :: c.2.
(** (cell, node), in the order of the loops. *)
Fixpoint occ (k : Z) (cells : list cell) : list (Z * Z) := match cells with [] => [] | c :: r => ((fun v => (k, v)) <$> c.2) ++ occ (k + 1) r end.
Fixpoint starts (connI : list Z) (k o : Z) (cells : list cell) : Prop :=
  match cells with [] => connI @ k = Some o | c :: r => connI @ k = Some o /\ starts connI (k + 1) (o + 1 + zlen c.2) r end.
Lemma starts_hd connI k o cells : starts connI k o cells -> connI @ k = Some o.
Proof. destruct cells; [done|]. intros [? _]. done. Qed.
Lemma zlen_pk c : zlen (pk c) = 1 + zlen c.2.
Proof. unfold pk. rewrite zlen_cons. lia. Qed.
Lemma offs_starts P o cells : starts (P ++ offs o (zlen <$> (pk <$> cells))) (zlen P) o cells.
Proof.
  revert P o. induction cells as [|c r IH]; intros P o; cbn [starts].
  - rewrite zlook_app_r by lia. rewrite Z.sub_diag. done.
  - split; [rewrite zlook_app_r by lia; rewrite Z.sub_diag; done|]. rewrite !fmap_cons. cbn [offs]. rewrite zlen_pk. specialize (IH (P ++ [o]) (o + (1 + zlen c.2))). rewrite <- app_assoc in IH. rewrite zlen_app in IH.
    change (zlen [o]) with 1 in IH. replace (o + 1 + zlen c.2) with (o + (1 + zlen c.2)) by lia. exact IH.
Qed.
Lemma stored_starts cells conn connI : skyline (pk <$> cells) conn connI -> starts connI 0 0 cells /\ conn = concat (pk <$> cells) /\ zlen connI = zlen cells + 1.
Proof.
  intros [-> Hp]. pose proof (prefix_sums_eq _ _ Hp) as ->. rewrite psums_offs. split; [apply (offs_starts [] 0 cells)|]. split; [done|]. rewrite <- psums_offs, psums_len, !zlen_fmap. done.
Qed.
Lemma inner_loop {St} P ns R (body : Z -> St -> res St) s : forZ (zlen P) (zlen P + zlen ns) (fun j s => let* v := rd (P ++ ns ++ R) j in body v s) s = foldM (fun s v => body v s) ns s.
Proof.
  revert P s. induction ns as [|v ns IH]; intros P s; [apply forZ_empty; rewrite zlen_nil; lia|]. rewrite zlen_cons. pose proof (zlen_nonneg ns). rewrite forZ_step by lia.
  rewrite (rd_ok _ _ v) by (rewrite zlook_app_r by lia; rewrite Z.sub_diag; done). cbn [bind foldM]. destruct (body v s) as [s'| | |]; cbn [bind]; try done.
  specialize (IH (P ++ [v]) s'). rewrite zlen_app in IH. change (zlen [v]) with 1 in IH. rewrite <- app_assoc in IH. rewrite <- IH. f_equal. lia.
Qed.
Lemma until_loop {St} P cells connI k (body : Z -> Z -> St -> res St) s : starts connI k (zlen P) cells ->
  forZ k (k + zlen cells) (fun i s => let* a := rd connI i in let* b := rd connI (i + 1) in
    ub_if (b <? a + 1) >>> forZ (a + 1) b (fun j s => let* v := rd (P ++ concat (pk <$> cells)) j in body i v s) s) s = foldM (fun s p => body p.1 p.2 s) (occ k cells) s.
Proof.
  revert P k s. induction cells as [|c r IH]; intros P k s Hs; [apply forZ_empty; rewrite zlen_nil; lia|]. rewrite zlen_cons. pose proof (zlen_nonneg r). rewrite forZ_step by lia.
  destruct Hs as [H1 H2]. rewrite (rd_ok _ _ _ H1). cbn [bind]. rewrite (rd_ok _ _ _ (starts_hd _ _ _ _ H2)). cbn [bind]. replace (_ <? _) with false by (pose proof (zlen_nonneg c.2); lia). unfold ubif.
  cbn [occ]. rewrite foldM_app. rewrite fmap_cons. cbn [concat]. unfold pk at 1 3.
  pose proof (inner_loop (P ++ [c.1]) c.2 (concat (pk <$> r)) (body k) s) as Hi. rewrite zlen_app in Hi. change (zlen [c.1]) with 1 in Hi.
  replace (P ++ (c.1 :: c.2) ++ concat (pk <$> r)) with ((P ++ [c.1]) ++ c.2 ++ concat (pk <$> r)) by (by rewrite <- !app_assoc). rewrite Hi.
  assert (E : foldM (fun s p => body p.1 p.2 s) ((fun v => (k, v)) <$> c.2) s = foldM (fun s v => body k v s) c.2 s).
  { generalize c.2 s. intros l. induction l as [|x l IHl]; intros s0; [done|]. rewrite fmap_cons. cbn [foldM fst snd]. destruct (body k x s0); cbn [bind]; [apply IHl|done..]. }
  rewrite E. destruct (foldM _ c.2 s) as [s'| | |]; cbn [bind]; try done.
  specialize (IH (P ++ pk c) (k + 1) s'). rewrite zlen_app, zlen_pk in IH. replace (zlen P + 1 + zlen c.2) with (zlen P + (1 + zlen c.2)) in H2 by lia. rewrite <- IH by done.
  replace (k + (1 + zlen r)) with (k + 1 + zlen r) by lia. replace ((P ++ [c.1]) ++ c.2 ++ concat (pk <$> r)) with ((P ++ pk c) ++ concat (pk <$> r)) by (unfold pk; rewrite <- !app_assoc; done). done.
Qed.
Lemma below_until {St} cells conn connI (body : Z -> Z -> St -> res St) s : skyline (pk <$> cells) conn connI -> nodesBelow conn connI (zlen cells) body s = nodesUntil conn connI (zlen cells) body s.
Proof.
  intros H. unfold nodesBelow, nodesUntil. unfold forZ. apply foldM_ext. intros s0 i Hi. apply elem_of_seqZ in Hi. destruct (zlook_lt cells i) as [c Hc]; [lia|].
  assert (Hp : (pk <$> cells) @ i = Some (pk c)) by (rewrite zlook_fmap, Hc; done). destruct H as [_ Hps]. assert (Hl : (zlen <$> (pk <$> cells)) @ i = Some (zlen (pk c))) by (rewrite zlook_fmap, Hp; done).
  destruct (psums_delta _ _ _ _ Hps Hl) as (a & Ha & Hb). rewrite (rd_ok _ _ _ Ha), (rd_ok _ _ _ Hb). cbn [bind]. rewrite zlen_pk. pose proof (zlen_nonneg c.2). replace (_ <? _) with false by lia. done.
Qed.
Lemma until_ok {St} cells conn connI (body : Z -> Z -> St -> res St) s : skyline (pk <$> cells) conn connI ->
  nodesUntil conn connI (zlen cells) body s = foldM (fun s p => body p.1 p.2 s) (occ 0 cells) s.
Proof. intros H. destruct (stored_starts _ _ _ H) as (Hs & -> & _). unfold nodesUntil. apply (until_loop [] cells connI 0 body s Hs). Qed.
Lemma below_ok {St} cells conn connI (body : Z -> Z -> St -> res St) s : skyline (pk <$> cells) conn connI ->
  nodesBelow conn connI (zlen cells) body s = foldM (fun s p => body p.1 p.2 s) (occ 0 cells) s.
Proof. intros H. rewrite below_until by done. by apply until_ok. Qed.
Lemma occ_elem k cells i v : (i, v) ∈ occ k cells <-> exists c, cells @ (i - k) = Some c /\ v ∈ c.2.
Proof.
  revert k. induction cells as [|c r IH]; intros k; cbn [occ].
  - split; [intros H; by apply elem_of_nil in H|]. intros (c & H & _). by rewrite zlook_nil in H.
  - rewrite elem_of_app, IH, elem_of_list_fmap. split.
    + intros [(x & [= -> ->] & Hx)|(c' & Hc' & Hv)].
      * exists c. rewrite Z.sub_diag. done.
      * exists c'. apply zlook_Some_lt in Hc' as ?. rewrite zlook_cons. replace (i - k =? 0) with false by lia. replace (i - k - 1) with (i - (k + 1)) by lia. done.
    + intros (c' & Hc' & Hv). rewrite zlook_cons in Hc'. destruct (Z.eqb_spec (i - k) 0).
      * injection Hc' as ->. left. exists v. split; [f_equal; lia|done].
      * right. exists c'. replace (i - (k + 1)) with (i - k - 1) by lia. done.
Qed.
Lemma occ_used cells v : 0 <= v -> (exists i, (i, v) ∈ occ 0 cells) <-> used cells v.
Proof.
  intros Hv. split.
  - intros (i & Hi). apply occ_elem in Hi as (c & Hc & Hin). split; [done|]. exists c. split; [eapply zlook_elem; done|done].
  - intros (_ & c & Hc & Hin). apply elem_of_zlook in Hc as [i Hi]. exists i. apply occ_elem. exists c. rewrite Z.sub_0_r. done.
Qed.

(** * Access to one cell *)
Lemma cell_at (cells : list cell) conn connI i (c : cell) : skyline (pk <$> cells) conn connI -> cells @ i = Some c ->
  exists a, connI @ i = Some a /\ connI @ (i + 1) = Some (a + 1 + zlen c.2) /\ 0 <= a /\ a + 1 + zlen c.2 <= zlen conn /\
    (exists P R, conn = P ++ pk c ++ R /\ zlen P = a).
Proof.
  intros H Hc. assert (Hp : (pk <$> cells) @ i = Some (pk c)) by (rewrite zlook_fmap, Hc; done).
  destruct (sky_pack _ _ _ _ _ H Hp) as (a & b & Ha & Hb & H0 & Hab & Hbl & Hsub). pose proof (f_equal zlen Hsub) as Hl. rewrite zlen_pk in Hl. unfold sub in Hl, Hsub. rewrite zlen_take, zlen_drop in Hl. pose proof (zlen_nonneg c.2).
  assert (b = a + 1 + zlen c.2) by lia. subst b. exists a. split; [done|]. split; [done|]. split; [done|]. split; [done|].
  exists (take (Z.to_nat a) conn), (drop (Z.to_nat (a + 1 + zlen c.2)) conn). split; [|rewrite zlen_take; lia]. rewrite Hsub.
  rewrite <- (take_drop (Z.to_nat a) conn) at 1. f_equal. rewrite <- (take_drop (Z.to_nat (a + 1 + zlen c.2 - a)) (drop (Z.to_nat a) conn)) at 1. f_equal. rewrite drop_drop. f_equal. lia.
Qed.
