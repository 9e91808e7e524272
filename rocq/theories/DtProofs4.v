From Verif Require Import Base ArrLib GlModel GlProofs2 SerModel SerProofs DtModel DtSpec IndexProofs4 TreeProofs TreeProofs9 TyProofs5 DtProofs DtProofs2 DtProofs3.
From Coq Require Import QArith Qabs Lqa ZifyBool ZifyNat.
Local Open Scope Z_scope.

(** each value is more than [e] above the one before *)
Definition rising (e : Q) (l : list Q) : Prop := forall k x y, l @ k = Some x -> l @ (k + 1) = Some y -> (x + e < y)%Q.
Lemma rising_snoc e l x : rising e l -> (forall b, last l = Some b -> (b + e < x)%Q) -> rising e (l ++ [x]).
Proof.
  intros HR HL k u v Hu Hv. pose proof (zlook_Some_lt _ _ _ Hu) as Bu. pose proof (zlook_Some_lt _ _ _ Hv) as Bv. rewrite zlen_app in Bu, Bv. change (zlen [x]) with 1 in *.
  destruct (Z.ltb_spec (k + 1) (zlen l)) as [H|H].
  - rewrite zlook_app_l in Hu, Hv by lia. by apply (HR k).
  - assert (Ek : k + 1 = zlen l) by lia. rewrite zlook_app_l in Hu by lia. rewrite zlook_app_r, Ek, Z.sub_diag in Hv by lia. injection Hv as <-.
    apply HL. destruct l as [|b l _] using rev_ind; [unfold zlen in *; cbn in *; lia|]. rewrite last_snoc. rewrite zlen_app in *. change (zlen [b]) with 1 in *.
    rewrite zlook_app_r in Hu by lia. replace (k - zlen l) with 0 in Hu by lia. injection Hu as <-. done.
Qed.
Lemma prefix_forward sl sl' : forward (sl ++ sl') -> forward sl.
Proof. intros H i s Hs. apply (H i). rewrite zlook_app_l; [done|]. apply zlook_Some_lt in Hs. lia. Qed.
Lemma prefix_ascending e sl sl' : ascending e (sl ++ sl') -> ascending e sl.
Proof. intros H i s s' Hs Hs'. pose proof (zlook_Some_lt _ _ _ Hs). pose proof (zlook_Some_lt _ _ _ Hs'). apply (H i); by rewrite zlook_app_l by lia. Qed.
Lemma prefix_apart e sl sl' : apart e (sl ++ sl') -> apart e sl.
Proof. intros H i j s s' Hs Hs' Hij. pose proof (zlook_Some_lt _ _ _ Hs). pose proof (zlook_Some_lt _ _ _ Hs'). apply (H i j); [by rewrite zlook_app_l by lia..|done]. Qed.
Lemma prefix_lasting e sl sl' : lasting e (sl ++ sl') -> lasting e sl.
Proof. intros H i m a b f t0 t1 Hs. pose proof (zlook_Some_lt _ _ _ Hs). apply (H i m a b f); by rewrite zlook_app_l by lia. Qed.

Lemma look_snoc {A} (l : list A) x : (l ++ [x]) @ zlen l = Some x.
Proof. rewrite zlook_app_r, Z.sub_diag by lia. done. Qed.
Lemma hot_rising e sl : (0 < e)%Q -> forward sl -> ascending e sl -> apart e sl -> lasting e sl ->
  rising e (foldl (hotStep e) [] sl) /\
  (forall p s b, sl = p ++ [s] -> last (foldl (hotStep e) [] sl) = Some b ->
     (b <= endTime s)%Q \/ exists q s0, p = q ++ [s0] /\ (b <= endTime s0)%Q) /\
  (sl <> [] -> foldl (hotStep e) [] sl <> []).
Proof.
  intros He. induction sl as [|s sl IH] using rev_ind; intros HF HU HA HT.
  { split; [intros k x y Hx; apply zlook_Some_lt in Hx; unfold zlen in Hx; cbn in Hx; lia|]. split; [|done]. intros p s b E. by destruct p. }
  destruct IH as (IR & IL & IN); [by eapply prefix_forward|by eapply prefix_ascending|by eapply prefix_apart|by eapply prefix_lasting|].
  rewrite foldl_app. cbn [foldl]. set (ret := foldl (hotStep e) [] sl) in *.
  pose proof (HF _ _ (look_snoc sl s)) as Hs. assert (HL : forall m a b f t0 t1, s = LinT m a b f t0 t1 -> (t0 + e + e <= t1)%Q).
  { intros m a b f t0 t1 ->. apply (HT (zlen sl) m a b f). apply look_snoc. }
  assert (HW : forall h, h ∈ sliceHotSpots s -> (startTime s <= h)%Q /\ (h <= endTime s)%Q). { intros h Hh. apply hot_within; [done|by apply hot_iff]. }
  destruct (last ret) as [b|] eqn:EL.
  2: { apply last_None in EL. assert (sl = []) as Esl. { destruct sl; [done|]. exfalso. by apply IN. }
       assert (ES : hotStep e ret s = sliceHotSpots s). { unfold hotStep. rewrite EL. cbn. by destruct (sliceHotSpots s). }
       rewrite ES. split; [|split].
       - destruct s as [m a f t|m a f t0 t1|m a b f t0 t1]; cbn [sliceHotSpots]; intros k x y Hx Hy; pose proof (zlook_Some_lt _ _ _ Hx) as B1; pose proof (zlook_Some_lt _ _ _ Hy) as B2; unfold zlen in B1, B2; cbn in B1, B2; [lia|lia|].
         assert (k = 0) by lia. subst k. injection Hx as <-. injection Hy as <-. specialize (HL _ _ _ _ _ _ eq_refl). lra.
       - intros p s' b E Hb. apply app_inj_tail in E as [<- <-]. left. apply HW. by apply last_Some_elem_of.
       - intros _. by destruct s. }
  assert (Hb : (b - e < startTime s)%Q /\ ((forall p s1, sl = p ++ [s1] -> (b <= endTime s1)%Q) \/ (b + e + e <= startTime s)%Q)).
  { destruct sl as [|s1 p _] using rev_ind; [done|]. destruct (IL p s1 b eq_refl eq_refl) as [H|(q & s0 & -> & H)].
    - assert (HX : (endTime s1 - e < startTime s)%Q).
      { apply (HU (zlen p) s1 s). - rewrite zlook_app_l by (rewrite zlen_app; change (zlen [s1]) with 1; lia). apply look_snoc. - replace (zlen p + 1) with (zlen (p ++ [s1])) by (rewrite zlen_app; done). apply look_snoc. }
      split; [lra|]. left. intros p' s' E. apply app_inj_tail in E as [_ <-]. done.
    - assert (HX : (endTime s0 + e + e <= startTime s)%Q).
      { apply (HA (zlen q) (zlen ((q ++ [s0]) ++ [s1])) s0 s).
        - rewrite zlook_app_l by (rewrite !zlen_app; change (zlen [s0]) with 1; pose proof (zlen_nonneg [s1]); lia). rewrite zlook_app_l by (rewrite !zlen_app; change (zlen [s0]) with 1; lia). apply look_snoc.
        - apply look_snoc.
        - rewrite !zlen_app. change (zlen [s0]) with 1. change (zlen [s1]) with 1. lia. }
      split; [lra|]. right. lra. }
  destruct Hb as [Hb1 Hb2]. split; [|split].
  - unfold hotStep. rewrite EL. destruct s as [m a f t|m a f t0 t1|m a b' f t0 t1]; cbn [sliceHotSpots startTime endTime] in *.
    + destruct (Qltb_spec e (Qabs (b - t))) as [H|H]; [|by rewrite app_nil_r]. apply rising_snoc; [done|]. intros b0 E. rewrite EL in E. injection E as <-.
      assert (HN : ~ (Qabs (b - t) <= e)%Q) by (intros H'; lra). rewrite abs_le in HN. destruct (Qlt_le_dec (b + e) t); [done|]. exfalso. lra.
    + destruct (HW ((t0 + t1) / 2)%Q ltac:(left)) as [W1 W2]. destruct (Qltb_spec e (Qabs (b - (t0 + t1) / 2))) as [H|H]; [|by rewrite app_nil_r]. apply rising_snoc; [done|]. intros b0 E. rewrite EL in E. injection E as <-.
      assert (HN : ~ (Qabs (b - (t0 + t1) / 2) <= e)%Q) by (intros H'; lra). rewrite abs_le in HN. destruct (Qlt_le_dec (b + e) ((t0 + t1) / 2)); [done|]. exfalso. lra.
    + specialize (HL _ _ _ _ _ _ eq_refl). destruct (Qltb_spec e (Qabs (b - t0))) as [H|H].
      * assert (HX : (b + e < t0)%Q). { assert (HN : ~ (Qabs (b - t0) <= e)%Q) by (intros H'; lra). rewrite abs_le in HN. destruct (Qlt_le_dec (b + e) t0); [done|]. exfalso. lra. }
        change (ret ++ [t0; t1]) with (ret ++ [t0] ++ [t1]). rewrite app_assoc. apply rising_snoc; [apply rising_snoc; [done|]|].
        -- intros b0 E. rewrite EL in E. injection E as <-. done.
        -- intros b0 E. rewrite last_snoc in E. injection E as <-. lra.
      * apply rising_snoc; [done|]. intros b0 E. rewrite EL in E. injection E as <-. lra.
  - intros p s' x E Hx. apply app_inj_tail in E as [<- <-].
    assert (HX : x = b /\ (Qabs (b - match sliceHotSpots s with f :: _ => f | [] => b end) <= e)%Q \/ x ∈ sliceHotSpots s).
    { unfold hotStep in Hx. rewrite EL in Hx. destruct (hot_front s) as (f & r & Ef). rewrite Ef in *. destruct (Qltb e (Qabs (b - f))) eqn:EQ.
      - right. rewrite last_app_cons in Hx. by apply last_Some_elem_of.
      - destruct r as [|y r]; [left|right]. + rewrite app_nil_r, EL in Hx. injection Hx as <-. split; [done|by apply Qltb_no].
        + rewrite last_app_cons in Hx. right. by apply last_Some_elem_of. }
    destruct HX as [[-> HX]|HX]; [|left; by apply HW].
    destruct Hb2 as [Hb2|Hb2].
    + destruct sl as [|s1 p _] using rev_ind; [done|]. right. exists p, s1. split; [done|]. by apply (Hb2 p).
    + exfalso. destruct (hot_front s) as (f & r & Ef). rewrite Ef in *. destruct (HW f ltac:(left)) as [W1 _]. apply abs_le in HX. lra.
  - intros _. apply step_some. intros E. rewrite E in EL. done.
Qed.
Lemma hot_thm e sl : (0 < e)%Q -> forward sl -> ascending e sl ->
  exists hs, getHotSpotsTime (DT (Some e) sl) = Ok hs /\
    (forall h, h ∈ hs -> exists s, s ∈ sl /\ hot s h) /\
    (forall s h, s ∈ sl -> hot s h -> exists r, r ∈ hs /\ (Qabs (r - h) <= e)%Q) /\
    (apart e sl -> lasting e sl -> forall k x y, hs @ k = Some x -> hs @ (k + 1) = Some y -> (x + e < y)%Q) /\
    (apart e sl -> forall h, h ∈ hs -> exists r, getIdsOnTime (DT (Some e) sl) h = Ok r).
Proof.
  intros He HF HU. exists (foldl (hotStep e) [] sl). split; [apply hot_run|]. split; [apply hot_listed|]. split; [apply hot_covered; lra|].
  split; [intros HA HT; by apply hot_rising|]. intros HA h Hh. destruct (hot_listed _ _ _ Hh) as (s & H1 & H2). by apply (hot_answered e sl s h).
Qed.

(** serialization *)
Definition fill (l : list Z) (n : Z) : list Z := l ++ replicate (Z.to_nat (n - zlen l)) 0.
Lemma wr_at p l n v q i : zlen l < n -> i = zlen p + zlen l -> wr (p ++ fill l n ++ q) i v = Ok (p ++ fill (l ++ [v]) n ++ q).
Proof.
  intros H ->. unfold fill. rewrite zlen_app. change (zlen [v]) with 1. replace (Z.to_nat (n - zlen l)) with (S (Z.to_nat (n - (zlen l + 1)))) by lia. cbn [replicate].
  rewrite <- !app_assoc. cbn [app]. rewrite (app_assoc p l), <- zlen_app, wr_app. by rewrite <- !app_assoc.
Qed.
Lemma fill_full l : fill l (zlen l) = l.
Proof. unfold fill. rewrite Z.sub_diag. apply app_nil_r. Qed.
Lemma fill_len l n : zlen l <= n -> zlen (fill l n) = n.
Proof. intros H. unfold fill. rewrite zlen_app, zlen_replicate. lia. Qed.
Lemma fill_nil n : fill [] n = replicate (Z.to_nat n) 0.
Proof. unfold fill. change (zlen (A := Z) []) with 0. by rewrite Z.sub_0_r. Qed.
Definition tI_of (s : slice) := (sliceTiny s).1.
Definition tD_of (s : slice) := (sliceTiny s).2.
Lemma ser_ok e sl : getTinySerializationInformation (DT (Some e) sl) =
  Ok ([zlen sl; zlen (concat (tI_of <$> sl))] ++ (timeType <$> sl) ++ ((fun s => zlen (tI_of s)) <$> sl) ++ ((fun s => zlen (tD_of s)) <$> sl) ++ concat (tI_of <$> sl),
      e :: concat (tD_of <$> sl)).
Proof.
  unfold getTinySerializationInformation. cbn [epsOf d_eps bind d_slices]. set (n := zlen sl). pose proof (zlen_nonneg sl : 0 <= n) as Hn.
  replace (replicate (Z.to_nat (3 * n + 2)) 0) with ([0; 0] ++ fill [] n ++ fill [] n ++ fill [] n).
  2: { rewrite !fill_nil, <- !replicate_add. replace (Z.to_nat (3 * n + 2)) with (2 + (Z.to_nat n + (Z.to_nat n + Z.to_nat n)))%nat by lia. done. }
  change (wr ([0; 0] ++ fill [] n ++ fill [] n ++ fill [] n) 0 n) with (wr ([] ++ 0 :: ([0] ++ fill [] n ++ fill [] n ++ fill [] n)) (zlen (A := Z) []) n). rewrite wr_app. cbn [bind app].
  change (n :: 0 :: fill [] n ++ fill [] n ++ fill [] n) with ([n; 0] ++ fill [] n ++ fill [] n ++ fill [] n).
  set (st := fun pre => ([n; 0] ++ fill (timeType <$> pre) n ++ fill ((fun s => zlen (tI_of s)) <$> pre) n ++ fill ((fun s => zlen (tD_of s)) <$> pre) n,
    e :: concat (tD_of <$> pre), concat (tI_of <$> pre))).
  match goal with |- context [forZ 0 n ?body ?s0] => assert (R : forZ 0 n body s0 = Ok (st sl)); [apply (forZ_blocks body st n sl); [done|]; unfold st|rewrite R; clear R; unfold st; clear st] end.
  { intros pre b post E. assert (HL : zlen pre < n) by (unfold n; rewrite E, zlen_app, zlen_cons; pose proof (zlen_nonneg post); lia).
       rewrite (rd_ok _ _ b) by (rewrite E, zlook_app_r, Z.sub_diag by lia; done). cbn [bind].
       rewrite (wr_at [n; 0]) by (rewrite zlen_fmap; change (zlen [n; 0]) with 2; lia). cbn [bind].
       destruct (sliceTiny b) as [x y] eqn:EB. assert (E1 : tI_of b = x) by (unfold tI_of; by rewrite EB). assert (E2 : tD_of b = y) by (unfold tD_of; by rewrite EB).
       rewrite (app_assoc [n; 0]). rewrite wr_at by (rewrite ?zlen_app, ?fill_len, ?zlen_fmap; rewrite ?zlen_app, ?zlen_fmap; change (zlen [n; 0]) with 2; change (zlen [timeType b]) with 1; lia). cbn [bind].
       rewrite (app_assoc ([n; 0] ++ _)). rewrite <- (app_nil_r (fill ((fun s => zlen (tD_of s)) <$> pre) n)).
       rewrite wr_at by (rewrite ?zlen_app, ?fill_len, ?zlen_fmap; rewrite ?zlen_app, ?zlen_fmap; change (zlen [n; 0]) with 2; change (zlen [timeType b]) with 1; change (zlen [zlen x]) with 1; lia). cbn [bind].
       rewrite !fmap_app, !concat_app. cbn [fmap list_fmap concat]. rewrite E1, E2, !app_nil_r, <- !app_assoc. done. }
  cbn [bind]. change (zlen sl) with n.
  assert (F : forall (g : slice -> Z), fill (g <$> sl) n = g <$> sl). { intros g. unfold n. rewrite <- (zlen_fmap g sl). apply fill_full. } rewrite !F.
  change ([n; 0] ++ (timeType <$> sl) ++ ((fun s => zlen (tI_of s)) <$> sl) ++ ((fun s => zlen (tD_of s)) <$> sl)) with ([n] ++ 0 :: ((timeType <$> sl) ++ ((fun s => zlen (tI_of s)) <$> sl) ++ ((fun s => zlen (tD_of s)) <$> sl))).
  change 1 with (zlen [n]). rewrite wr_app. cbn [bind]. f_equal. f_equal. cbn [app]. by rewrite <- !app_assoc.
Qed.
Lemma slice_back s : sliceOfTiny (timeType s) (tI_of s) (tD_of s) = Ok s.
Proof. by destruct s. Qed.
Lemma uns_ok e sl c : unserialize ([zlen sl; c] ++ (timeType <$> sl) ++ ((fun s => zlen (tI_of s)) <$> sl) ++ ((fun s => zlen (tD_of s)) <$> sl) ++ concat (tI_of <$> sl))
      (e :: concat (tD_of <$> sl)) = Ok (DT (Some e) sl).
Proof.
  unfold unserialize. set (n := zlen sl). pose proof (zlen_nonneg sl : 0 <= n) as Hn.
  set (T := [n; c] ++ _). rewrite (rd_ok T 0 n) by done. cbn [bind]. rewrite (rd_ok _ 0 e) by done. cbn [bind].
  set (st := fun pre => (pre, zlen (concat (tI_of <$> pre)), 1 + zlen (concat (tD_of <$> pre)))).
  match goal with |- context [forZ 0 n ?body ?s0] => assert (R : forZ 0 n body s0 = Ok (st sl)); [apply (forZ_blocks body st n sl); [done|]; unfold st|rewrite R; done] end.
  intros pre b post E. assert (HL : zlen pre < n) by (unfold n; rewrite E, zlen_app, zlen_cons; pose proof (zlen_nonneg post); lia). pose proof (zlen_nonneg pre).
  assert (Hb : sl @ zlen pre = Some b) by (rewrite E, zlook_app_r, Z.sub_diag by lia; done).
  assert (HG : forall g : slice -> Z, (g <$> sl) @ zlen pre = Some (g b)) by (intros g; rewrite zlook_fmap, Hb; done).
  rewrite (rd_ok T _ (timeType b)).
  2: { unfold T. rewrite zlook_app_r by (change (zlen [n; c]) with 2; lia). change (zlen [n; c]) with 2. rewrite zlook_app_l by (rewrite zlen_fmap; lia). replace (zlen pre + 2 - 2) with (zlen pre) by lia. apply HG. }
  cbn [bind]. rewrite (rd_ok T _ (zlen (tI_of b))).
  2: { unfold T. rewrite zlook_app_r by (change (zlen [n; c]) with 2; lia). change (zlen [n; c]) with 2. rewrite zlook_app_r by (rewrite zlen_fmap; lia). rewrite zlen_fmap. rewrite zlook_app_l by (rewrite zlen_fmap; lia).
       replace (zlen pre + n + 2 - 2 - zlen sl) with (zlen pre) by lia. apply (HG (fun s => zlen (tI_of s))). }
  cbn [bind]. rewrite (rd_ok T _ (zlen (tD_of b))).
  2: { unfold T. rewrite zlook_app_r by (change (zlen [n; c]) with 2; lia). change (zlen [n; c]) with 2. rewrite !zlook_app_r by (rewrite !zlen_fmap; lia). rewrite !zlen_fmap. rewrite zlook_app_l by (rewrite zlen_fmap; lia).
       replace (zlen pre + 2 * n + 2 - 2 - zlen sl - zlen sl) with (zlen pre) by lia. apply (HG (fun s => zlen (tD_of s))). }
  cbn [bind]. rewrite (subv_mid T ([n; c] ++ (timeType <$> sl) ++ ((fun s => zlen (tI_of s)) <$> sl) ++ ((fun s => zlen (tD_of s)) <$> sl) ++ concat (tI_of <$> pre)) (tI_of b) (concat (tI_of <$> post))).
  2: { unfold T. rewrite <- !app_assoc. do 4 f_equal. rewrite E at 1. rewrite fmap_app, concat_app. done. }
  2: { rewrite !zlen_app, !zlen_fmap. change (zlen [n; c]) with 2. lia. }
  2: done.
  cbn [bind]. rewrite (subv_mid _ (e :: concat (tD_of <$> pre)) (tD_of b) (concat (tD_of <$> post))).
  2: { rewrite E, fmap_app, concat_app. done. }
  2: { by rewrite zlen_cons. }
  2: done.
  cbn [bind]. rewrite slice_back. cbn [bind]. rewrite !fmap_app, !concat_app, !zlen_app. cbn [fmap list_fmap concat]. rewrite !app_nil_r. do 2 f_equal. lia.
Qed.
Lemma ser_thm e sl : exists tI tD, getTinySerializationInformation (DT (Some e) sl) = Ok (tI, tD) /\ unserialize tI tD = Ok (DT (Some e) sl).
Proof. eexists _, _. split; [apply ser_ok|apply uns_ok]. Qed.
