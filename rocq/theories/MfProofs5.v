From stdpp Require Import strings.
From Verif Require Import Base ArrLib SerModel SerProofs MfModel MfSpec IndexProofs4 TreeProofs TreeProofs9 ConnProofs2 TyProofs5 DtProofs4 MfProofs MfProofs2 MfProofs3 MfProofs4.
From Coq Require Import QArith ZifyBool ZifyNat.
Local Open Scope Z_scope.
Local Open Scope list_scope.

Record blk (I : Type) := Blk { b_f : fld I; b_t : I * Z; b_r : Z; b_rs : list Z }.
Arguments Blk {I}. Arguments b_f {I}. Arguments b_t {I}. Arguments b_r {I}. Arguments b_rs {I}.
Definition outF {I} (addr : Z -> Z) (ms das : list Z) (i : Z) (b : blk I) : fld I :=
  Fld (addr i) (b_t b).1 (b_t b).2 (mp ms (b_r b)) (f_kind (b_f b)) (mp das <$> b_rs b) "" (f_tol (b_f b)) (f_times (b_f b)).
Definition outs {I} addr ms das (bs : list (blk I)) : list (fld I) := imap (fun i => outF addr ms das (Z.of_nat i)) bs.

Lemma vlook1 h b1 b2 b3 b4 b5 b6 tl i x : zlen h = 3 -> b1 @ i = Some x -> (V h b1 b2 b3 b4 b5 b6 ++ tl) @ (3 + i) = Some x.
Proof. intros H Hx. pose proof (zlook_Some_lt _ _ _ Hx). unfold V. rewrite <- app_assoc, zlook_app_r by lia. rewrite <- app_assoc, zlook_app_l by lia. by replace (3 + i - zlen h) with i by lia. Qed.
Lemma vlook2 n h b1 b2 b3 b4 b5 b6 tl i x : zlen h = 3 -> zlen b1 = n -> b2 @ i = Some x -> (V h b1 b2 b3 b4 b5 b6 ++ tl) @ (n + i + 3) = Some x.
Proof. intros H H1 Hx. pose proof (zlen_nonneg b1). pose proof (zlook_Some_lt _ _ _ Hx). unfold V. rewrite <- !app_assoc. rewrite !zlook_app_r by lia. rewrite zlook_app_l by lia. by replace (n + i + 3 - zlen h - zlen b1) with i by lia. Qed.
Lemma vlook3 n h b1 b2 b3 b4 b5 b6 tl i x : zlen h = 3 -> zlen b1 = n -> zlen b2 = n -> b3 @ i = Some x -> (V h b1 b2 b3 b4 b5 b6 ++ tl) @ (2 * n + 3 + i) = Some x.
Proof. intros H H1 H2 Hx. pose proof (zlen_nonneg b1). pose proof (zlook_Some_lt _ _ _ Hx). unfold V. rewrite <- !app_assoc. rewrite !zlook_app_r by lia. rewrite zlook_app_l by lia. by replace (2 * n + 3 + i - zlen h - zlen b1 - zlen b2) with i by lia. Qed.
Lemma vlook4 n h b1 b2 b3 b4 b5 b6 tl i x : zlen h = 3 -> zlen b1 = n -> zlen b2 = n -> zlen b3 = n -> b4 @ i = Some x -> (V h b1 b2 b3 b4 b5 b6 ++ tl) @ (3 * n + 3 + i) = Some x.
Proof. intros H H1 H2 H3 Hx. pose proof (zlen_nonneg b1). pose proof (zlook_Some_lt _ _ _ Hx). unfold V. rewrite <- !app_assoc. rewrite !zlook_app_r by lia. rewrite zlook_app_l by lia. by replace (3 * n + 3 + i - zlen h - zlen b1 - zlen b2 - zlen b3) with i by lia. Qed.
Lemma vlook5 n h b1 b2 b3 b4 b5 b6 tl i x : zlen h = 3 -> zlen b1 = n -> zlen b2 = n -> zlen b3 = n -> zlen b4 = n -> b5 @ i = Some x -> (V h b1 b2 b3 b4 b5 b6 ++ tl) @ (4 * n + 3 + i) = Some x.
Proof. intros H H1 H2 H3 H4 Hx. pose proof (zlen_nonneg b1). pose proof (zlook_Some_lt _ _ _ Hx). unfold V. rewrite <- !app_assoc. rewrite !zlook_app_r by lia. rewrite zlook_app_l by lia. by replace (4 * n + 3 + i - zlen h - zlen b1 - zlen b2 - zlen b3 - zlen b4) with i by lia. Qed.
Lemma vlook6 n h b1 b2 b3 b4 b5 b6 tl i x : zlen h = 3 -> zlen b1 = n -> zlen b2 = n -> zlen b3 = n -> zlen b4 = n -> zlen b5 = n -> b6 @ i = Some x -> (V h b1 b2 b3 b4 b5 b6 ++ tl) @ (5 * n + i + 3) = Some x.
Proof. intros H H1 H2 H3 H4 H5 Hx. pose proof (zlen_nonneg b1). pose proof (zlook_Some_lt _ _ _ Hx). unfold V. rewrite <- !app_assoc. rewrite !zlook_app_r by lia. rewrite zlook_app_l by lia. by replace (5 * n + i + 3 - zlen h - zlen b1 - zlen b2 - zlen b3 - zlen b4 - zlen b5) with i by lia. Qed.

Lemma uns_ok {I} (addr : Z -> Z) (bs : list (blk I)) ms das ms' das' c :
  Forall (fun b => WellTimed (b_f b) /\ RefOf ms (f_mesh (b_f b)) (b_r b) /\ Forall2 (RefOf das) (f_arrays (b_f b)) (b_rs b)) bs -> zlen ms' = zlen ms -> zlen das' = zlen das ->
  let gs := b_f <$> bs in let refs2 := b_rs <$> bs in
  finishUnserialization addr (V [zlen gs; zlen (concat refs2); c] (b_r <$> bs) (zlen <$> refs2) (f_kind <$> gs) (nD <$> gs) (nI <$> gs) (concat refs2) ++ concat (tinyInt2 <$> gs))
        (concat (tinyDbl2 <$> gs)) (b_t <$> bs) ms' das' = Ok (outs addr ms' das' bs).
Proof.
  intros HB HLm HLd gs refs2. unfold finishUnserialization. set (n := zlen gs). set (N := zlen (concat refs2)). set (T := V _ _ _ _ _ _ _ ++ _).
  pose proof (zlen_nonneg gs : 0 <= n) as Hn. rewrite (rd_ok T 0 n) by done. cbn [bind]. rewrite (rd_ok T 1 N) by done. cbn [bind].
  assert (En : zlen bs = n) by (unfold n, gs; by rewrite zlen_fmap).
  assert (E1 : zlen (b_r <$> bs) = n) by (by rewrite zlen_fmap). assert (E2 : zlen (zlen <$> refs2) = n) by (unfold refs2; by rewrite !zlen_fmap).
  assert (E3 : zlen (f_kind <$> gs) = n) by (by rewrite zlen_fmap). assert (E4 : zlen (nD <$> gs) = n) by (by rewrite zlen_fmap). assert (E5 : zlen (nI <$> gs) = n) by (by rewrite zlen_fmap).
  set (st := fun pre : list (blk I) => (fun b => mp ms' (b_r b)) <$> pre).
  match goal with |- context [forZ 0 n ?body ?s0] => assert (R : forZ 0 n body s0 = Ok (st bs)); [apply (forZ_blocks body st n bs); [done|]; unfold st|rewrite R; clear R; unfold st; clear st] end.
  { intros pre b post E. assert (Hb : bs @ zlen pre = Some b) by (rewrite E, zlook_app_r, Z.sub_diag by lia; done).
    assert (HX : b ∈ bs) by (rewrite E; set_solver). rewrite Forall_forall in HB. destruct (HB b HX) as (_ & HR & _).
    rewrite (rd_ok T _ (b_r b)) by (apply vlook1; [done|]; by rewrite zlook_fmap, Hb). cbn [bind]. rewrite (rd_ok _ _ (b_t b)) by (by rewrite zlook_fmap, Hb). cbn [bind].
    rewrite (proj1 (pick_ok _ _ _ _ HR HLm)). cbn [bind]. by rewrite fmap_app. }
  cbn [bind].
  set (st := fun pre : list (blk I) => (outs addr ms' das' pre, zlen (concat (b_rs <$> pre)), zlen (concat ((fun b => tinyInt2 (b_f b)) <$> pre)), zlen (concat ((fun b => tinyDbl2 (b_f b)) <$> pre)))).
  match goal with |- context [forZ 0 n ?body ?s0] => assert (R : forZ 0 n body s0 = Ok (st bs)); [apply (forZ_blocks body st n bs); [done|]; unfold st|rewrite R; done] end.
  intros pre b post E. assert (Hb : bs @ zlen pre = Some b) by (rewrite E, zlook_app_r, Z.sub_diag by lia; done).
  assert (HX : b ∈ bs) by (rewrite E; set_solver). rewrite Forall_forall in HB. destruct (HB b HX) as (HW & HR & HA). clear HX.
  assert (HG : forall X (g : fld I -> X), (g <$> gs) @ zlen pre = Some (g (b_f b))) by (intros X g; unfold gs; rewrite !zlook_fmap, Hb; done).
  destruct (kind_ok _ HW) as [K1 K2].
  rewrite (rd_ok _ _ (b_t b)) by (by rewrite zlook_fmap, Hb). cbn [bind]. rewrite (rd_ok _ _ (mp ms' (b_r b))) by (by rewrite zlook_fmap, Hb). cbn [bind].
  rewrite (rd_ok T _ (f_kind (b_f b))) by (apply vlook3; try done; apply HG). cbn [bind]. rewrite K1. cbn [negb ifthrow].
  rewrite (rd_ok T _ (zlen (b_rs b))) by (apply vlook2; try done; unfold refs2; rewrite !zlook_fmap, Hb; done). cbn [bind].
  (* its arrays *)
  assert (EC : concat refs2 = concat (b_rs <$> pre) ++ b_rs b ++ concat (b_rs <$> post)) by (unfold refs2; rewrite E, fmap_app, concat_app; done).
  set (K := zlen (concat (b_rs <$> pre))). pose proof (zlen_nonneg (concat (b_rs <$> pre)) : 0 <= K) as HK.
  set (sa := fun p : list Z => (mp das' <$> p, K + zlen p)).
  match goal with |- context [forZ 0 (zlen (b_rs b)) ?body ?s0] => assert (R : forZ 0 (zlen (b_rs b)) body s0 = Ok (sa (b_rs b))) end.
  { match goal with |- forZ 0 _ ?body ?s0 = _ => replace s0 with (sa []) by (unfold sa; change (zlen (A := Z) []) with 0; by rewrite Z.add_0_r); apply (forZ_blocks body sa); [done|] end.
    unfold sa. intros p x q Ex. assert (Hx : b_rs b @ zlen p = Some x) by (rewrite Ex, zlook_app_r, Z.sub_diag by lia; done). pose proof (zlook_Some_lt _ _ _ Hx) as Bx.
    rewrite (rd_ok T _ x). 2: { apply vlook6; try done. rewrite EC, zlook_app_r by lia. replace (K + zlen p - zlen (concat (b_rs <$> pre))) with (zlen p) by lia. by rewrite zlook_app_l by lia. }
    cbn [bind]. assert (HP : exists ap, RefOf das ap x).
    { rewrite zlook_to_nat in Hx by lia. destruct (Forall2_lookup_r _ _ _ _ _ HA Hx) as (ap & _ & ?). by exists ap. }
    destruct HP as [ap HP]. rewrite (proj1 (pick_ok _ _ _ _ HP HLd)). cbn [bind]. rewrite fmap_app, zlen_app. change (zlen [x]) with 1. by rewrite Z.add_assoc. }
  rewrite R. clear R. unfold sa. clear sa. cbn [bind].
  destruct (picks_ok _ das' _ _ HA HLd []) as [_ HC2]. pose proof (Forall2_length _ _ _ HC2) as EL. unfold setArrays. rewrite K2.
  replace (zlen (mp das' <$> b_rs b) =? zlen (f_arrays (b_f b))) with true by (unfold zlen; lia). cbn [negb ifthrow bind].
  rewrite (rd_ok T _ (nI (b_f b))) by (apply vlook5; try done; apply HG). cbn [bind]. rewrite (rd_ok T _ (nD (b_f b))) by (apply vlook4; try done; apply HG). cbn [bind].
  rewrite (subv_mid T (V [n; N; c] (b_r <$> bs) (zlen <$> refs2) (f_kind <$> gs) (nD <$> gs) (nI <$> gs) (concat refs2) ++ concat ((fun b => tinyInt2 (b_f b)) <$> pre)) (tinyInt2 (b_f b)) (concat ((fun b => tinyInt2 (b_f b)) <$> post))).
  2: { unfold T. rewrite <- app_assoc. f_equal. unfold gs. rewrite E, <- list_fmap_compose. unfold compose. rewrite fmap_app, concat_app. done. }
  2: { rewrite zlen_app. unfold V. rewrite !zlen_app, E1, E2, E3, E4, E5. change (zlen [n; N; c]) with 3. fold N. lia. }
  2: { done. }
  cbn [bind]. rewrite (subv_mid _ (concat ((fun b => tinyDbl2 (b_f b)) <$> pre)) (tinyDbl2 (b_f b)) (concat ((fun b => tinyDbl2 (b_f b)) <$> post))).
  2: { unfold gs. rewrite E, <- list_fmap_compose. unfold compose. rewrite fmap_app, concat_app. done. }
  2: { done. }
  2: { done. }
  cbn [bind]. rewrite (finish2_ok _ HW). cbn [bind]. rewrite !fmap_app, !concat_app, !zlen_app. cbn [fmap list_fmap concat]. rewrite !app_nil_r. fold K.
  do 4 f_equal. unfold outs. rewrite imap_app. f_equal. cbn [imap]. f_equal. unfold outF, compose. rewrite Nat.add_0_r. done.
Qed.

Lemma blocks {I} (gs : list (fld I)) : forall ft refs refs2, length ft = length gs -> length refs = length gs -> length refs2 = length gs ->
  exists bs, b_f <$> bs = gs /\ b_t <$> bs = ft /\ b_r <$> bs = refs /\ b_rs <$> bs = refs2.
Proof.
  induction gs as [|g gs IH]; intros [|t ft] [|r refs] [|rs refs2] H1 H2 H3; cbn in H1, H2, H3; try lia; [by exists []|].
  destruct (IH ft refs refs2) as (bs & <- & <- & <- & <-); [lia..|]. by exists (Blk g t r rs :: bs).
Qed.
Lemma round_trip {I} (addr : Z -> Z) (gs : list (fld I)) ft : Forall WellTimed gs -> zlen ft = zlen gs ->
  exists tI tD ms das, getTinySerializationInformation (Some <$> gs) = Ok (tI, tD, zlen ms, zlen das) /\
    Distinct (f_mesh <$> gs) ms /\ Distinct (concat (f_arrays <$> gs)) das /\
    forall ms' das', zlen ms' = zlen ms -> zlen das' = zlen das ->
    exists fs' : list (fld I), finishUnserialization addr tI tD ft ms' das' = Ok fs' /\ zlen fs' = zlen gs /\
      forall i f, gs @ i = Some f -> exists (f' : fld I) t, fs' @ i = Some f' /\ ft @ i = Some t /\ f_ptr f' = addr i /\ (f_info f', f_discr f') = t /\
        f_kind f' = f_kind f /\ f_tol f' = f_tol f /\ f_times f' = f_times f /\ Corr ms ms' (f_mesh f) (f_mesh f') /\ Forall2 (Corr das das') (f_arrays f) (f_arrays f').
Proof.
  intros HW HL. pose proof (meshes_ok (Some <$> gs)) as HM. pose proof (arrays_ok (Some <$> gs)) as HA.
  destruct (getDifferentMeshes (Some <$> gs)) as [ms refs] eqn:EM. destruct (getDifferentArrays (Some <$> gs)) as [das refs2] eqn:EA.
  destruct HM as [HMD HMR], HA as [HAD HAR]. rewrite <- list_fmap_compose in HMD, HMR, HAD, HAR. change (meshOf ∘ Some) with (f_mesh (I := I)) in *. change (arraysOf ∘ Some) with (f_arrays (I := I)) in *.
  assert (L1 : length refs = length gs) by (rewrite <- (Forall2_length _ _ _ HMR); apply fmap_length).
  assert (L2 : length refs2 = length gs) by (rewrite <- (Forall2_length _ _ _ HAR); apply fmap_length).
  assert (L3 : length ft = length gs) by (unfold zlen in HL; lia).
  eexists _, _, ms, das. split; [apply (ser_ok gs ms refs das refs2 EM EA); unfold zlen; lia|]. split; [done|]. split; [done|]. intros ms' das' Hm Hd.
  destruct (blocks gs ft refs refs2 L3 L1 L2) as (bs & B1 & B2 & B3 & B4).
  subst gs ft refs refs2. rewrite <- list_fmap_compose in HMR, HAR. unfold compose in HMR, HAR.
  assert (HB : Forall (fun b => WellTimed (b_f b) /\ RefOf ms (f_mesh (b_f b)) (b_r b) /\ Forall2 (RefOf das) (f_arrays (b_f b)) (b_rs b)) bs).
  { rewrite Forall_fmap in HW. rewrite Forall2_fmap in HMR. rewrite Forall2_fmap in HAR. apply Forall_forall. intros b Hb. apply elem_of_list_lookup in Hb as [i Hi].
    split; [by apply (Forall_lookup_1 _ _ _ _ HW Hi)|]. split; [apply (Forall2_lookup_lr _ _ _ _ _ _ HMR Hi Hi)|apply (Forall2_lookup_lr _ _ _ _ _ _ HAR Hi Hi)]. }
  pose proof (uns_ok addr bs ms das ms' das' (zlen (concat (tinyInt2 <$> (b_f <$> bs)))) HB Hm Hd) as HU. cbn zeta in HU.
  eexists. split; [exact HU|]. unfold outs. split; [unfold zlen; by rewrite imap_length, fmap_length|].
  intros i f Hi. rewrite zlook_fmap in Hi. destruct (bs @ i) as [b|] eqn:Eb; [|done]. cbn in Hi. injection Hi as <-. pose proof (zlook_Some_lt _ _ _ Eb) as Bb.
  exists (outF addr ms' das' i b), (b_t b). split.
  { rewrite zlook_to_nat by lia. rewrite list_lookup_imap. rewrite zlook_to_nat in Eb by lia. rewrite Eb. cbn. f_equal. f_equal. lia. }
  split; [by rewrite zlook_fmap, Eb|]. split; [done|]. split; [cbn; by destruct (b_t b)|]. split; [done|]. split; [done|]. split; [done|].
  rewrite Forall_forall in HB. destruct (HB b) as (_ & R1 & R2); [apply elem_of_zlook; by exists i|]. split; [by apply pick_ok|by apply (picks_ok _ _ _ _ R2 Hd [])].
Qed.
