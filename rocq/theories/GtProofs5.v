From Coq Require Import QArith ZifyBool ZifyNat.
From stdpp Require Import gmap.
From Verif Require Import CellModel Base DataArray ArrLib FillLib SlicesSpec SlicesModel SlicesProofs SearchSpec SearchModel SearchProofs IndexSpec IndexModel IndexProofs IndexProofs2 IndexProofs4 IndexProofs3 SkySpec SkyModel SkyProofs SkyProofs4 CellTable CellProofs5 DsProofs6 GlModel GlProofs2 UmModel UmSpec UmProofs UmProofs2 UmProofs3 UmProofs4 UmProofs8 UmProofs9 UmProofs10 MgSpec GtModel GtSpec GtProofs GtProofs2 GtProofs4.
Local Open Scope Z_scope.

(** * From a mesh of the general class *)
Lemma first_not {B} (P : B -> Prop) `{forall b, Decision (P b)} (bs : list B) : ~ (forall b, b ∈ bs -> P b) -> exists pre b post, bs = pre ++ b :: post /\ (forall x, x ∈ pre -> P x) /\ ~ P b.
Proof.
  induction bs as [|x bs IH]; intros Hn; [destruct Hn; intros b Hb; inversion Hb|]. destruct (decide (P x)) as [Hx|Hx].
  - destruct IH as (pre & b & post & -> & H1 & H2). { intros Hall. apply Hn. intros b [->|Hb]%elem_of_cons; auto. }
    exists (x :: pre), b, post. split; [done|]. split; [intros y [->|Hy]%elem_of_cons; auto|done].
  - exists [], x, bs. split; [done|]. split; [intros y Hy; inversion Hy|done].
Qed.
Lemma forZ_scan {B S} (body : Z -> S -> res S) (st : list B -> S) (ok : B -> Prop) `{forall b, Decision (ok b)} n bs : zlen bs = n ->
  (forall pre b post, bs = pre ++ b :: post -> (forall x, x ∈ pre -> ok x) -> ok b -> body (zlen pre) (st pre) = Ok (st (pre ++ [b]))) ->
  (forall pre b post, bs = pre ++ b :: post -> (forall x, x ∈ pre -> ok x) -> ~ ok b -> body (zlen pre) (st pre) = Throw) ->
  ((forall b, b ∈ bs -> ok b) -> forZ 0 n body (st []) = Ok (st bs)) /\ (~ (forall b, b ∈ bs -> ok b) -> forZ 0 n body (st []) = Throw).
Proof.
  intros Hn H1 H2. split.
  - intros Hall. apply forZ_blocks; [done|]. intros pre b post E. apply (H1 pre b post E); [intros x Hx|]; apply Hall; rewrite E; apply elem_of_app; [by left|right; left].
  - intros Hbad. apply (first_not ok) in Hbad as (pre & b & post & E & Hp & Hb). apply (forZ_stop _ _ _ pre).
    + rewrite <- Hn, E, zlen_app, zlen_cons. pose proof (zlen_nonneg post). lia.
    + intros p x q E'. apply (H1 p x (q ++ b :: post)); [rewrite E, E', <- app_assoc; done| |]; [intros y Hy|]; apply Hp; rewrite E'; apply elem_of_app; [by left|right; left].
    + by apply (H2 pre b post).
Qed.
Lemma cell_span cells conn connI i c : skyline (pk <$> cells) conn connI -> cells @ i = Some c ->
  exists a, rd connI i = Ok a /\ rd connI (i + 1) = Ok (a + 1 + zlen c.2) /\ 0 <= a /\ a + 1 + zlen c.2 <= zlen conn /\ rd conn a = Ok c.1 /\ sub conn (a + 1) (a + 1 + zlen c.2) = c.2.
Proof.
  intros Hs Hc. destruct (cell_at cells conn connI i c Hs Hc) as (a & E1 & E2 & Ha & Hb & P & R & EP & HP). pose proof (zlen_nonneg c.2). exists a. split; [by apply rd_ok|]. split; [by apply rd_ok|]. split; [done|]. split; [done|]. split.
  - apply rd_ok. rewrite EP, zlook_app_r by lia. rewrite HP, Z.sub_diag. done.
  - rewrite EP. unfold sub. replace (P ++ pk c ++ R) with ((P ++ [c.1]) ++ c.2 ++ R) by (rewrite <- app_assoc; done). rewrite drop_z by (rewrite zlen_app; unfold zlen; simpl; unfold zlen in HP; lia). apply take_z. lia.
Qed.
Lemma split_at {B} (pre : list B) b post : (pre ++ b :: post) @ zlen pre = Some b.
Proof. rewrite zlook_app_r by lia. rewrite Z.sub_diag. done. Qed.
Lemma typed_one u cells t : typed u cells -> um_types u = [t] -> cells <> [] /\ forall c, c ∈ cells -> c.1 = t.
Proof.
  intros (_ & Ht) E. split.
  - intros ->. assert (t ∈ um_types u) as Hin by (rewrite E; left). apply Ht in Hin as (c & Hc & _). inversion Hc.
  - intros c Hc. assert (c.1 ∈ um_types u) as Hin by (apply Ht; eauto). rewrite E in Hin. by apply elem_of_list_singleton in Hin.
Qed.
Lemma typed_of u cells t : typed u cells -> cells <> [] -> (forall c, c ∈ cells -> c.1 = t) -> um_types u = [t].
Proof.
  intros (Ha & Ht) Hne Hall. destruct cells as [|c0 r]; [done|]. assert (t ∈ um_types u) as Hin. { apply Ht. exists c0. split; [left|]. apply Hall. left. }
  destruct (um_types u) as [|x l]; [inversion Hin|]. assert (x = t) as ->. { destruct (proj1 (Ht x)) as (c & Hc & <-); [left|]. by apply Hall. }
  f_equal. destruct l as [|y l]; [done|]. destruct Ha as (Hlt & _). pose proof (Hlt y ltac:(left)). destruct (proj1 (Ht y)) as (c & Hc & Ey); [right; left|]. rewrite (Hall c Hc) in Ey. lia.
Qed.
Lemma model_dec t : (exists k, GetCellModel t = Ok k) \/ GetCellModel t = Throw.
Proof. unfold GetCellModel. destruct (List.find _ _); eauto. Qed.
Lemma concat_pk (pre : list cell) : zlen (concat (pk <$> pre)) = zlen pre + zlen (concat (snd <$> pre)).
Proof. induction pre as [|c r IH]; [done|]. rewrite !fmap_cons. cbn [concat]. rewrite !zlen_app, IH, zlen_cons. unfold pk. rewrite zlen_cons. lia. Qed.

Lemma concat_snd (pre : list cell) c : concat (snd <$> (pre ++ [c])) = concat (snd <$> pre) ++ c.2.
Proof. rewrite fmap_app, concat_app, list_fmap_singleton. cbn [concat]. by rewrite app_nil_r. Qed.
Lemma psums_snd (pre : list cell) c : psums (zlen <$> (snd <$> (pre ++ [c]))) = psums (zlen <$> (snd <$> pre)) ++ [zlen (concat (snd <$> pre)) + zlen c.2].
Proof. rewrite !fmap_app, !list_fmap_singleton, psums_snoc_eq, zlen_concat. done. Qed.

Section FROM.
Context (u : umesh) (cells : list cell) (Hs : stores u cells) (Ht : typed u cells).
Lemma from_static : ((exists t k, all_of t k cells /\ cm_dyn k = false) -> exists m, S_NewFrom u = Ok m /\ s_holds m cells /\ sg_coords m = um_coords u) /\
  (~ (exists t k, all_of t k cells /\ cm_dyn k = false) -> S_NewFrom u = Throw).
Proof using All.
  destruct Hs as (cin & ciin & E1 & E2 & Hsky). change (skyline (pk <$> cells) cin ciin) in Hsky. destruct (stored_starts _ _ _ Hsky) as (_ & Ecin & Hl).
  apply wp_cases. unfold S_NewFrom. destruct (um_types u) as [|t [|t' l]] eqn:Eu.
  1: { cbn. intros (t & k & (_ & Hne & Hall) & _). pose proof (typed_of u cells t Ht Hne (fun c Hc => proj1 (Hall c Hc))). congruence. }
  2: { cbn. intros (x & k & (_ & Hne & Hall) & _). pose proof (typed_of u cells x Ht Hne (fun c Hc => proj1 (Hall c Hc))). congruence. }
  destruct (typed_one u cells t Ht Eu) as (Hne & Hall).
  assert (Hun : forall x k, all_of x k cells -> x = t). { intros x k (_ & _ & Ha). destruct cells as [|c r]; [done|]. destruct (Ha c ltac:(left)) as (<- & _). apply Hall. left. }
  unfold S_New. destruct (model_dec t) as [(k & Ek)|Ek]; rewrite Ek; cbn [bind]; [|intros (x & k & Ha & _); rewrite (Hun x k Ha) in Ha; destruct Ha as (Ha & _); congruence].
  unfold ifthrow. destruct (cm_dyn k) eqn:Ed; [cbn; intros (x & k' & Ha & Hd); rewrite (Hun x k' Ha) in Ha; destruct Ha as (Ha & _); congruence|].
  cbn [bind]. unfold getNumberOfCells. rewrite E2. cbn [bind]. unfold S_getNumberOfNodesPerCell, ifthrow. cbn [sg_cm]. rewrite Ed. cbn [bind]. replace (zlen ciin - 1) with (zlen cells) by lia. set (n := cm_nbpts k). pose proof (static_pos t k Ek Ed) as Hn. fold n in Hn. pose proof (zlen_nonneg cells).
  rewrite alloc1 by nia. cbn [bind]. unfold unchecked. rewrite E1, E2.
  set (st := fun pre : list cell => ((Some <$> concat (snd <$> pre)) ++ malloc Z (zlen cells * n - zlen (concat (snd <$> pre))), zlen (concat (snd <$> pre)))).
  replace (malloc Z (zlen cells * n), 0) with (st []) by (unfold st; change (concat _) with (@nil Z); change (zlen (@nil Z)) with 0; rewrite Z.sub_0_r; done).
  match goal with |- context [forZ 0 (zlen cells) ?body (st [])] => destruct (forZ_scan body st (fun c : cell => zlen c.2 = n) (zlen cells) cells eq_refl) as (F1 & F2) end.
  { intros pre c post E Hpre Hc. assert (Hcc : cells @ zlen pre = Some c) by (rewrite E; apply split_at). destruct (cell_span _ _ _ _ _ Hsky Hcc) as (a & R1 & R2 & Ha & Hb & R3 & R4). unfold st at 1. cbn beta iota. rewrite R1. cbn [bind]. rewrite R3. cbn [bind].
    rewrite (Hall c) by (by eapply zlook_elem). rewrite Z.eqb_refl, R2. cbn [bind]. replace (_ =? _) with true by lia. assert (Hlen : zlen (concat (snd <$> pre)) = zlen pre * n) by (by apply concat_same). assert (zlen pre + 1 <= zlen cells) by (rewrite E, zlen_app, zlen_cons; pose proof (zlen_nonneg post); lia).
    rewrite copyc_fill; [|lia|lia|lia|nia|lia]. cbn [bind]. unfold st. f_equal. rewrite concat_snd, R4, zlen_app. f_equal; [|lia]. f_equal. f_equal. lia. }
  { intros pre c post E Hpre Hc. assert (Hcc : cells @ zlen pre = Some c) by (rewrite E; apply split_at). destruct (cell_span _ _ _ _ _ Hsky Hcc) as (a & R1 & R2 & Ha & Hb & R3 & R4). unfold st. cbn beta iota. rewrite R1. cbn [bind]. rewrite R3. cbn [bind].
    rewrite (Hall c) by (by eapply zlook_elem). rewrite Z.eqb_refl, R2. cbn [bind]. replace (_ =? _) with false by lia. done. }
  assert (Dec : (forall c, c ∈ cells -> zlen c.2 = n) \/ ~ (forall c, c ∈ cells -> zlen c.2 = n)). { destruct (decide (Forall (fun c : cell => zlen c.2 = n) cells)) as [D|D]; rewrite Forall_forall in D; [by left|by right]. }
  destruct Dec as [D|D].
  - rewrite (F1 D). unfold st. cbn beta iota. cbn [bind]. rewrite (concat_same cells n D), Z.sub_diag. change (malloc Z 0) with (@nil (option Z)). rewrite app_nil_r, initialised_ok. cbn [bind wp]. pose proof (model_in _ _ Ek) as Hin. pose proof (GetCellModel_type k Hin) as Ek'.
    assert (cm_type k = t) as Et. { unfold GetCellModel in Ek. destruct (List.find _ _) eqn:Ef; [|done]. injection Ek as ->. apply List.find_some in Ef as (_ & Ef). lia. }
    split; [exists t, k; split; [split; [done|]; split; [done|]; intros c Hc; split; auto|done]|]. split; [|done]. split; [done|]. split; [done|]. split; [|done]. cbn [sg_cm]. intros c Hc. split; [rewrite Et; auto|by apply D].
  - rewrite (F2 D). cbn. intros (x & k' & Ha & Hd). rewrite (Hun x k' Ha) in Ha. destruct Ha as (Ha & _ & Ha2). rewrite Ek in Ha. injection Ha as <-. apply D. intros c Hc. apply Ha2; done.
Qed.
Lemma from_dynamic : ((exists t k, all_of t k cells /\ cm_dyn k = true) -> exists m, D_NewFrom u = Ok m /\ d_packed m cells /\ dg_coords m = um_coords u) /\
  (~ (exists t k, all_of t k cells /\ cm_dyn k = true) -> D_NewFrom u = Throw).
Proof using All.
  destruct Hs as (cin & ciin & E1 & E2 & Hsky). change (skyline (pk <$> cells) cin ciin) in Hsky. destruct (stored_starts _ _ _ Hsky) as (_ & Ecin & Hl).
  apply wp_cases. unfold D_NewFrom. destruct (um_types u) as [|t [|t' l]] eqn:Eu.
  1: { cbn. intros (t & k & (_ & Hne & Hall) & _). pose proof (typed_of u cells t Ht Hne (fun c Hc => proj1 (Hall c Hc))). congruence. }
  2: { cbn. intros (x & k & (_ & Hne & Hall) & _). pose proof (typed_of u cells x Ht Hne (fun c Hc => proj1 (Hall c Hc))). congruence. }
  destruct (typed_one u cells t Ht Eu) as (Hne & Hall).
  assert (Hun : forall x k, all_of x k cells -> x = t). { intros x k (_ & _ & Ha). destruct cells as [|c r]; [done|]. destruct (Ha c ltac:(left)) as (<- & _). apply Hall. left. }
  unfold D_New. destruct (model_dec t) as [(k & Ek)|Ek]; rewrite Ek; cbn [bind]; [|intros (x & k & Ha & _); rewrite (Hun x k Ha) in Ha; destruct Ha as (Ha & _); congruence].
  unfold ifthrow. destruct (cm_dyn k) eqn:Ed; [|cbn; intros (x & k' & Ha & Hd); rewrite (Hun x k' Ha) in Ha; destruct Ha as (Ha & _); congruence].
  cbn [bind negb]. unfold getNumberOfCells. rewrite E2. cbn [bind]. unfold unchecked. rewrite E1, E2. replace (zlen ciin - 1) with (zlen cells) by lia. pose proof (zlen_nonneg cells).
  assert (Hlast : rd ciin (zlen cells) = Ok (zlen cin)). { apply rd_ok. destruct Hsky as (-> & Hps). pose proof (psums_last _ _ Hps) as Hx. rewrite !zlen_fmap in Hx. rewrite Hx, zlen_concat. done. }
  rewrite Hlast. cbn [bind]. set (N := zlen (concat (snd <$> cells))). assert (zlen cin = zlen cells + N) as EN by (rewrite Ecin; apply concat_pk). pose proof (zlen_nonneg (concat (snd <$> cells))) as HN. fold N in HN.
  rewrite alloc1 by lia. cbn [bind]. rewrite alloc1 by lia. cbn [bind]. replace (malloc Z (zlen cells + 1)) with ((Some <$> @nil Z) ++ malloc Z (zlen cells + 1)) by done. rewrite (wrc_fill []) by (done || lia). cbn [bind app].
  set (st := fun pre : list cell => ((Some <$> concat (snd <$> pre)) ++ malloc Z (N - zlen (concat (snd <$> pre))), zlen (concat (snd <$> pre)), (Some <$> psums (zlen <$> (snd <$> pre))) ++ malloc Z (zlen cells - zlen pre))).
  replace (malloc Z (zlen cin - zlen cells), 0, (Some <$> [0]) ++ malloc Z (zlen cells + 1 - 1)) with (st []). 2: { unfold st. change (psums _) with [0]. change (concat _) with (@nil Z). change (zlen (@nil Z)) with 0. change (zlen (@nil cell)) with 0. f_equal; [f_equal; change ((Some <$> @nil Z) ++ ?x) with x; f_equal; lia|f_equal; f_equal; lia]. }
  match goal with |- context [forZ 0 (zlen cells) ?body (st [])] => assert (forZ 0 (zlen cells) body (st []) = Ok (st cells)) as -> end.
  { apply forZ_blocks; [done|]. intros pre c post E. assert (Hcc : cells @ zlen pre = Some c) by (rewrite E; apply split_at). destruct (cell_span _ _ _ _ _ Hsky Hcc) as (a & R1 & R2 & Ha & Hb & R3 & R4). unfold st at 1. cbn beta iota. rewrite R1. cbn [bind]. rewrite R3. cbn [bind].
    rewrite (Hall c) by (by eapply zlook_elem). rewrite Z.eqb_refl, R2. cbn [bind]. pose proof (zlen_nonneg c.2). replace (1 <=? _) with true by lia. assert (Hroom : N = zlen (concat (snd <$> pre)) + zlen c.2 + zlen (concat (snd <$> post))). { unfold N. rewrite E, fmap_app, fmap_cons, concat_app. cbn [concat]. rewrite !zlen_app. lia. }
    pose proof (zlen_nonneg (concat (snd <$> post))). assert (zlen pre + 1 <= zlen cells) by (rewrite E, zlen_app, zlen_cons; pose proof (zlen_nonneg post); lia).
    rewrite copyc_fill; [|lia|lia|lia|lia|lia]. cbn [bind]. rewrite (rdc_fill _ _ _ (zlen (concat (snd <$> pre)))). 2: { rewrite zlen_concat. pose proof (psums_end (zlen <$> (snd <$> pre))) as Hx. rewrite !zlen_fmap in Hx. done. }
    cbn [bind]. rewrite wrc_fill; [|lia|rewrite psums_len, !zlen_fmap; done]. cbn [bind]. unfold st. f_equal. rewrite concat_snd, psums_snd, R4, !zlen_app. f_equal; [f_equal; [|lia]|].
    - f_equal. f_equal. lia.
    - f_equal; [do 4 f_equal; lia|f_equal; change (zlen [c]) with 1; lia]. }
  unfold st. cbn beta iota. cbn [bind]. fold N. rewrite !Z.sub_diag. change (malloc Z 0) with (@nil (option Z)). rewrite !app_nil_r, !initialised_ok. cbn [bind]. cbn [bind wp]. pose proof (model_in _ _ Ek) as Hin. pose proof (GetCellModel_type k Hin) as Ek'.
  assert (cm_type k = t) as Et. { unfold GetCellModel in Ek. destruct (List.find _ _) eqn:Ef; [|done]. injection Ek as ->. apply List.find_some in Ef as (_ & Ef). lia. }
  split; [exists t, k; split; [split; [done|]; split; [done|]; intros c Hc; split; [auto|congruence]|done]|]. split; [|done]. split; [done|]. split; [done|]. split; [cbn; intros c Hc; rewrite Et; auto|]. eexists _, _. split; [done|]. split; [done|]. apply skyline_psums.
Qed.
Lemma from_any : ((exists t k, all_of t k cells) -> exists g, G_NewFrom u = Ok g /\ g_holds g cells /\ G_coords g = um_coords u) /\ (~ (exists t k, all_of t k cells) -> G_NewFrom u = Throw).
Proof using All.
  destruct from_static as (A1 & A2). destruct from_dynamic as (B1 & B2). assert (Hg : forall t k, all_of t k cells -> um_types u = [t]). { intros t k (_ & Hne & Hall). apply (typed_of u cells t Ht Hne). intros c Hc. by apply Hall. } split.
  - intros (t & k & Ha). unfold G_NewFrom. rewrite (Hg t k Ha). rewrite (proj1 Ha). cbn [bind]. destruct (cm_dyn k) eqn:Ed; cbn [negb].
    + destruct B1 as (m & -> & H1 & H2); [eauto|]. exists (inr m). done.
    + destruct A1 as (m & -> & H1 & H2); [eauto|]. exists (inl m). done.
  - intros Hn. rewrite A2 in * by (intros (t & k & Ha & _); eauto). rewrite B2 in * by (intros (t & k & Ha & _); eauto). unfold G_NewFrom. destruct (um_types u) as [|t [|]]; try done. destruct (model_dec t) as [(k & ->)| ->]; [|done]. cbn [bind]. rewrite A2, B2 by (intros (x & y & Ha & _); eauto). by destruct (cm_dyn k).
Qed.
End FROM.
