From Verif Require Import Base DataArray ArrLib StrModel StrSpec StrProofs StrProofs2 StrProofs3.
From Coq Require Import ZifyBool ZifyNat.

Lemma nb_true_app a b : nb_true (a ++ b) = nb_true a + nb_true b.
Proof. induction a as [|x a IH]; [done|]. cbn [app nb_true]. rewrite IH. destruct x; lia. Qed.
Lemma nb_true_nonneg a : 0 <= nb_true a.
Proof. induction a as [|[] a IH]; cbn [nb_true]; lia. Qed.
Lemma nb_true_0 a i : nb_true a = 0 -> a @ i = Some true -> False.
Proof. revert i. induction a as [|x a IH]; intros i H Hi; [by rewrite zlook_nil in Hi|]. pose proof (nb_true_nonneg a). cbn [nb_true] in H. rewrite zlook_cons in Hi. destruct (i =? 0); [injection Hi as ->; lia|]. destruct x; [lia|]. eapply IH; [lia|exact Hi]. Qed.

(** Extent of the true cells with an id below [it], along the axis [a]. *)
Definition below (st : list Z) (crit : list bool) (it : Z) (pos : list Z) : Prop := true_at st crit pos /\ grid_id st pos < it.
Definition ext (st : list Z) (crit : list bool) (a it m M : Z) : Prop :=
  (forall pos p, below st crit it pos -> pos @ a = Some p -> m <= p <= M) /\
  (0 < nb_true (take (Z.to_nat it) crit) -> (exists pos, below st crit it pos /\ pos @ a = Some m) /\ (exists pos, below st crit it pos /\ pos @ a = Some M)) /\
  (nb_true (take (Z.to_nat it) crit) = 0 -> m = maxId /\ M = - maxId).
Lemma ext_0 st crit a : ext st crit a 0 maxId (- maxId).
Proof.
  split; [|split; [|done]].
  - intros pos p [[Hg _] Hlt] _. apply grid_id_range in Hg. lia.
  - change (Z.to_nat 0) with 0%nat. rewrite take_0. cbn. lia.
Qed.
Lemma nb_step crit it c : crit @ it = Some c -> nb_true (take (Z.to_nat (it + 1)) crit) = nb_true (take (Z.to_nat it) crit) + (if c then 1 else 0).
Proof. intros H. rewrite (take_snoc_z _ _ _ H), nb_true_app. cbn [nb_true]. lia. Qed.
Lemma ext_step st crit a it m M pos0 p0 c : in_grid st pos0 -> grid_id st pos0 = it -> pos0 @ a = Some p0 -> - maxId <= p0 <= maxId -> crit @ it = Some c -> ext st crit a it m M ->
  ext st crit a (it + 1) (if c then Z.min m p0 else m) (if c then Z.max M p0 else M).
Proof.
  intros Hg Hid Ha Hp0 Hc (H1 & H2 & H3). pose proof (nb_step _ _ _ Hc) as Hn. pose proof (nb_true_nonneg (take (Z.to_nat it) crit)) as Hn0. destruct c.
  - assert (below st crit (it + 1) pos0) as Hb0 by (split; [split; [done|]; congruence|lia]).
    assert (forall pos, below st crit it pos -> below st crit (it + 1) pos) as Hbm by (intros pos [? ?]; split; [done|lia]).
    split; [|split].
    + intros pos p [Ht Hlt] Hp. destruct (decide (grid_id st pos = it)) as [E|E].
      * assert (pos = pos0) as -> by (apply (grid_id_inj st); try done; [apply Ht|congruence]). rewrite Ha in Hp. injection Hp as ->. lia.
      * pose proof (H1 pos p ltac:(split; [done|lia]) Hp). lia.
    + intros _. destruct (decide (nb_true (take (Z.to_nat it) crit) = 0)) as [E|E].
      * destruct (H3 E) as [-> ->]. split; exists pos0; (split; [done|]); rewrite Ha; f_equal; lia.
      * destruct (H2 ltac:(lia)) as [(q1 & Hq1 & Hq1') (q2 & Hq2 & Hq2')]. split.
        -- destruct (Z.min_spec m p0) as [[_ ->]|[_ ->]]; [exists q1; split; [by apply Hbm|done]|exists pos0; split; done].
        -- destruct (Z.max_spec M p0) as [[_ ->]|[_ ->]]; [exists pos0; split; done|exists q2; split; [by apply Hbm|done]].
    + lia.
  - rewrite Z.add_0_r in Hn. split; [|split].
    + intros pos p [Ht Hlt] Hp. destruct (decide (grid_id st pos = it)) as [E|E].
      * destruct Ht as [_ Ht]. rewrite E, Hc in Ht. done.
      * apply (H1 pos p); [split; [done|lia]|done].
    + rewrite Hn. intros Hlt. destruct (H2 Hlt) as [(q1 & Hq1 & Hq1') (q2 & Hq2 & Hq2')]. split; [exists q1|exists q2]; (split; [|done]); [destruct Hq1|destruct Hq2]; (split; [done|lia]).
    + rewrite Hn. done.
Qed.
(** What the search of the extents returns. *)
Definition hull_of (st : list Z) (crit : list bool) (part : box) : Prop :=
  box_in st part /\ (forall pos, true_at st crit pos -> in_box part pos) /\
  (forall a r, part @ a = Some r -> fst r = snd r \/ (exists pos, true_at st crit pos /\ pos @ a = Some (fst r)) /\ (exists pos, true_at st crit pos /\ pos @ a = Some (snd r - 1))).
Lemma middle_hull st crit : Forall (Z.le 0) st -> nb_true crit = 0 -> hull_of st crit (middlePart st).
Proof.
  intros Hs Hn. split; [|split].
  - unfold middlePart. induction Hs as [|n st Hn0 _ IH]; [constructor|]. rewrite fmap_cons. constructor; [|done]. simpl. pose proof (Z.quot_pos n 2). pose proof (Z.quot_le_upper_bound n 2 n). lia.
  - intros pos [_ H]. by eapply nb_true_0 in H.
  - intros a r Hr. left. unfold middlePart in Hr. rewrite zlook_fmap in Hr. destruct (st @ a); [|done]. injection Hr as <-. done.
Qed.
(** The intervals given by the extents. *)
Lemma ext_hull st crit part : zlen crit = grid_nb st -> 0 < nb_true crit -> zlen part = zlen st -> (forall a r, part @ a = Some r -> ext st crit a (grid_nb st) (fst r) (snd r - 1)) -> hull_of st crit part.
Proof.
  intros Hc Hn Hl H. assert (take (Z.to_nat (grid_nb st)) crit = crit) as Htk by (apply take_ge; unfold zlen in Hc; lia).
  assert (forall pos, true_at st crit pos -> below st crit (grid_nb st) pos) as Hbel by (intros pos Ht; split; [done|]; destruct Ht as [Hg _]; apply grid_id_range in Hg; lia).
  split; [|split].
  - unfold box_in. apply Forall2_same_length_lookup_2; [unfold zlen in Hl; lia|]. intros i n r Hni Hri. rewrite <- (zlook_nat (A:=Z)) in Hni. rewrite <- (zlook_nat (A:=Z*Z)) in Hri. destruct (H _ _ Hri) as (H1 & H2 & _). rewrite Htk in H2. destruct (H2 Hn) as [(q1 & [[Hg1 Ht1] Hb1] & Hq1) (q2 & [[Hg2 Ht2] Hb2] & Hq2)].
    pose proof (H1 q1 _ (conj (conj Hg1 Ht1) Hb1) Hq1). rewrite zlook_nat in Hq1, Hq2, Hni. pose proof (Forall2_lookup_lr _ _ _ _ _ _ Hg1 Hni Hq1) as X1. pose proof (Forall2_lookup_lr _ _ _ _ _ _ Hg2 Hni Hq2) as X2. simpl in X1, X2. lia.
  - intros pos Ht. pose proof (Hbel _ Ht) as Hb. destruct Ht as [Hg Ht]. unfold in_box. apply Forall2_same_length_lookup_2; [apply Forall2_length in Hg; unfold zlen in Hl; lia|]. intros i r p Hri Hpi. rewrite <- (zlook_nat (A:=Z)) in Hpi. rewrite <- (zlook_nat (A:=Z*Z)) in Hri. destruct (H _ _ Hri) as (H1 & _). pose proof (H1 pos p Hb Hpi). lia.
  - intros a r Hr. right. destruct (H _ _ Hr) as (_ & H2 & _). rewrite Htk in H2. destruct (H2 Hn) as [(q1 & [Ht1 _] & Hq1) (q2 & [Ht2 _] & Hq2)]. split; [by exists q1|by exists q2].
Qed.
Lemma fmp1 st crit : zlen st = 1 -> Forall (fun n => 0 <= n <= maxId) st -> zlen crit = grid_nb st -> exists part, FindMinimalPartOf1D st crit = Ok (nb_true crit, part) /\ hull_of st crit part.
Proof.
  intros Hz Hst Hc. destruct st as [|nx [|]]; unfold zlen in Hz; simpl in Hz; try lia. inversion Hst as [|?? Hx _]; subst. assert (grid_nb [nx] = nx) as Hg by (cbn; lia). rewrite Hg in Hc.
  assert (Hw : wp (forZ 0 nx (fun i '(ret, xm, xM) => let* c := rd crit i in Ok (if c : bool then (ret + 1, Z.min xm i, Z.max xM i) else (ret, xm, xM))) (0, maxId, - maxId))
    (fun '(ret, xm, xM) => ret = nb_true crit /\ ext [nx] crit 0 nx xm xM) False).
  { apply (wp_forZ (fun i '(ret, xm, xM) => ret = nb_true (take (Z.to_nat i) crit) /\ ext [nx] crit 0 i xm xM)).
    - lia.
    - split; [done|]. apply ext_0.
    - intros i [[ret xm] xM] Hi (-> & He). destruct (zlook_lt crit i) as [c Hci]; [lia|]. rewrite (rd_ok _ _ _ Hci). cbn [bind wp]. pose proof (nb_step _ _ _ Hci) as Hn.
      pose proof (ext_step [nx] crit 0 i xm xM [i] i c ltac:(repeat constructor; lia) ltac:(cbn; lia) eq_refl ltac:(unfold maxId in *; lia) Hci He) as He'. destruct c; (split; [lia|exact He']).
    - intros [[ret xm] xM] (-> & He). rewrite take_ge by (unfold zlen in Hc; lia). done. }
  apply wp_ok in Hw as ([[ret xm] xM] & Hw & -> & He). unfold FindMinimalPartOf1D. rewrite Hw. cbn [bind]. eexists. split; [done|]. destruct (nb_true crit =? 0) eqn:E.
  - apply middle_hull; [repeat constructor; lia|lia].
  - apply ext_hull; [lia|pose proof (nb_true_nonneg crit); lia|done|]. intros a r Hr. rewrite Hg. pose proof (zlook_Some_lt _ _ _ Hr) as Ha. change (zlen [(xm, xM + 1)]) with 1 in Ha. assert (a = 0) as -> by lia. injection Hr as <-. cbn [fst snd]. replace (xM + 1 - 1) with xM by lia. done.
Qed.
Lemma fmp2 st crit : zlen st = 2 -> Forall (fun n => 0 <= n <= maxId) st -> zlen crit = grid_nb st -> exists part, FindMinimalPartOf2D st crit = Ok (nb_true crit, part) /\ hull_of st crit part.
Proof.
  intros Hz Hst Hc. destruct st as [|nx [|ny [|]]]; unfold zlen in Hz; simpl in Hz; try lia. inversion Hst as [|?? Hx Hst']; subst. inversion Hst' as [|?? Hy _]; subst. assert (grid_nb [nx; ny] = nx * ny) as Hg by (cbn; lia). rewrite Hg in Hc. set (st := [nx; ny]) in *.
  set (I := fun it '(it', (ret, xm, xM, ym, yM)) => it' = it /\ ret = nb_true (take (Z.to_nat it) crit) /\ ext st crit 0 it xm xM /\ ext st crit 1 it ym yM).
  assert (Hw : wp (forZ 0 ny (fun i s => forZ 0 nx (fun j '(it, (ret, xm, xM, ym, yM)) =>
      let* c := rd crit it in
      Ok (it + 1, if c : bool then (ret + 1, Z.min xm j, Z.max xM j, Z.min ym i, Z.max yM i) else (ret, xm, xM, ym, yM))) s)
      (0, (0, maxId, - maxId, maxId, - maxId))) (I (nx * ny)) False).
  { apply (wp_forZ (fun i => I (i * nx))).
    - lia.
    - rewrite Z.mul_0_l. split; [done|]. split; [done|]. split; apply ext_0.
    - intros i s Hi Hs. apply (wp_forZ (fun j => I (i * nx + j))).
      + lia.
      + rewrite Z.add_0_r. done.
      + intros j [it [[[[ret xm] xM] ym] yM]] Hj (-> & -> & E1 & E2). destruct (zlook_lt crit (i * nx + j)) as [c Hci]; [nia|]. rewrite (rd_ok _ _ _ Hci). cbn [bind wp]. pose proof (nb_step _ _ _ Hci) as Hn.
        assert (in_grid st [j; i]) as Hin by (repeat constructor; lia). assert (grid_id st [j; i] = i * nx + j) as Hid by (cbn; lia).
        pose proof (ext_step st crit 0 _ xm xM [j; i] j c Hin Hid eq_refl ltac:(unfold maxId in *; lia) Hci E1) as E1'.
        pose proof (ext_step st crit 1 _ ym yM [j; i] i c Hin Hid eq_refl ltac:(unfold maxId in *; lia) Hci E2) as E2'.
        rewrite Z.add_assoc. destruct c; (split; [lia|split; [lia|split; done]]).
      + intros s' Hs'. replace ((i + 1) * nx) with (i * nx + nx) by lia. done.
    - intros s Hs. replace (nx * ny) with (ny * nx) by lia. done. }
  apply wp_ok in Hw as ([it [[[[ret xm] xM] ym] yM]] & Hw & -> & -> & E1 & E2). unfold FindMinimalPartOf2D. unfold st at 1. rewrite Hw. cbn [bind]. rewrite take_ge by (unfold zlen in Hc; lia). eexists. split; [done|]. destruct (nb_true crit =? 0) eqn:E.
  - apply middle_hull; [repeat constructor; lia|lia].
  - apply ext_hull; [lia|pose proof (nb_true_nonneg crit); lia|done|]. intros a r Hr. rewrite Hg. pose proof (zlook_Some_lt _ _ _ Hr) as Ha. change (zlen [(xm, xM + 1); (ym, yM + 1)]) with 2 in Ha.
    assert (a = 0 \/ a = 1) as [-> | ->] by lia; injection Hr as <-; cbn [fst snd]; rewrite Z.add_simpl_r; done.
Qed.
Lemma fmp3 st crit : zlen st = 3 -> Forall (fun n => 0 <= n <= maxId) st -> zlen crit = grid_nb st -> exists part, FindMinimalPartOf3D st crit = Ok (nb_true crit, part) /\ hull_of st crit part.
Proof.
  intros Hz Hst Hc. destruct st as [|nx [|ny [|nz [|]]]]; unfold zlen in Hz; simpl in Hz; try lia. inversion Hst as [|?? Hx Hst']; subst. inversion Hst' as [|?? Hy Hst2]; subst. inversion Hst2 as [|?? Hzz _]; subst. assert (grid_nb [nx; ny; nz] = nx * ny * nz) as Hg by (cbn; lia). rewrite Hg in Hc. set (st := [nx; ny; nz]) in *.
  set (I := fun it '(it', (ret, xm, xM, ym, yM, zm, zM)) => it' = it /\ ret = nb_true (take (Z.to_nat it) crit) /\ ext st crit 0 it xm xM /\ ext st crit 1 it ym yM /\ ext st crit 2 it zm zM).
  assert (Hw : wp (forZ 0 nz (fun i s => forZ 0 ny (fun j s => forZ 0 nx (fun k '(it, (ret, xm, xM, ym, yM, zm, zM)) =>
      let* c := rd crit it in
      Ok (it + 1, if c : bool then (ret + 1, Z.min xm k, Z.max xM k, Z.min ym j, Z.max yM j, Z.min zm i, Z.max zM i) else (ret, xm, xM, ym, yM, zm, zM))) s) s)
      (0, (0, maxId, - maxId, maxId, - maxId, maxId, - maxId))) (I (nx * ny * nz)) False).
  { apply (wp_forZ (fun i => I (i * (nx * ny)))).
    - lia.
    - rewrite Z.mul_0_l. split; [done|]. split; [done|]. split; [|split]; apply ext_0.
    - intros i s Hi Hs. apply (wp_forZ (fun j => I (i * (nx * ny) + j * nx))).
      + lia.
      + rewrite Z.mul_0_l, Z.add_0_r. done.
      + intros j s1 Hj Hs1. apply (wp_forZ (fun k => I (i * (nx * ny) + j * nx + k))).
        * lia.
        * rewrite Z.add_0_r. done.
        * intros k [it [[[[[[ret xm] xM] ym] yM] zm] zM]] Hk (-> & -> & E1 & E2 & E3). 
          assert (in_grid st [k; j; i]) as Hin by (repeat constructor; lia). assert (grid_id st [k; j; i] = i * (nx * ny) + j * nx + k) as Hid by (cbn; lia). pose proof (grid_id_range _ _ Hin) as Hrange. rewrite Hid, Hg in Hrange.
          destruct (zlook_lt crit (i * (nx * ny) + j * nx + k)) as [c Hci]; [lia|]. rewrite (rd_ok _ _ _ Hci). cbn [bind wp]. pose proof (nb_step _ _ _ Hci) as Hn.
          pose proof (ext_step st crit 0 _ xm xM [k; j; i] k c Hin Hid eq_refl ltac:(unfold maxId in *; lia) Hci E1) as E1'.
          pose proof (ext_step st crit 1 _ ym yM [k; j; i] j c Hin Hid eq_refl ltac:(unfold maxId in *; lia) Hci E2) as E2'.
          pose proof (ext_step st crit 2 _ zm zM [k; j; i] i c Hin Hid eq_refl ltac:(unfold maxId in *; lia) Hci E3) as E3'.
          rewrite Z.add_assoc. destruct c; (split; [lia|split; [lia|split; [done|split; done]]]).
        * intros s' Hs'. replace (i * (nx * ny) + (j + 1) * nx) with (i * (nx * ny) + j * nx + nx) by lia. done.
      + intros s' Hs'. replace ((i + 1) * (nx * ny)) with (i * (nx * ny) + ny * nx) by lia. done.
    - intros s Hs. replace (nx * ny * nz) with (nz * (nx * ny)) by lia. done. }
  apply wp_ok in Hw as ([it [[[[[[ret xm] xM] ym] yM] zm] zM]] & Hw & -> & -> & E1 & E2 & E3). unfold FindMinimalPartOf3D. unfold st at 1. rewrite Hw. cbn [bind]. rewrite take_ge by (unfold zlen in Hc; lia). eexists. split; [done|]. destruct (nb_true crit =? 0) eqn:E.
  - apply middle_hull; [repeat constructor; lia|lia].
  - apply ext_hull; [lia|pose proof (nb_true_nonneg crit); lia|done|]. intros a r Hr. rewrite Hg. pose proof (zlook_Some_lt _ _ _ Hr) as Ha. change (zlen [(xm, xM + 1); (ym, yM + 1); (zm, zM + 1)]) with 3 in Ha.
    assert (a = 0 \/ a = 1 \/ a = 2) as [-> | [-> | ->]] by lia; injection Hr as <-; cbn [fst snd]; rewrite Z.add_simpl_r; done.
Qed.

(** ** Enlarging *)
Lemma enlarge_ok m n a b : 0 <= m -> m <= n -> 0 <= a -> a <= b -> b <= n -> exists a' b', enlarge m n (a, b) = Ok (a', b') /\ 0 <= a' /\ a' <= a /\ b <= b' /\ b' <= n /\ m <= b' - a' /\ (b' - a' = m \/ (a' = a /\ b' = b)).
Proof.
  intros Hm Hn Ha Hab Hb. unfold enlarge. replace (n <? m) with false by lia. cbn [ifthrow]. rewrite (Z.quot_div_nonneg (a + b)), (Z.quot_div_nonneg m) by lia.
  pose proof (Z.div_mod (a + b) 2 ltac:(lia)) as D1. pose proof (Z.mod_pos_bound (a + b) 2 ltac:(lia)). pose proof (Z.div_mod m 2 ltac:(lia)) as D2. pose proof (Z.mod_pos_bound m 2 ltac:(lia)).
  set (q := (a + b) / 2) in *. set (h := m / 2) in *. destruct (b - a <? m) eqn:E.
  - destruct (q - h <? 0) eqn:E2.
    + destruct (n <? q + m - h + - (q - h)) eqn:E3; eexists _, _; (split; [done|]); lia.
    + destruct (n <? q + m - h) eqn:E3; eexists _, _; (split; [done|]); lia.
  - eexists _, _. split; [done|]. lia.
Qed.
Lemma enlarge_throw m n r : n < m -> enlarge m n r = Throw.
Proof. intros H. unfold enlarge. replace (n <? m) with true by lia. done. Qed.
Lemma enlarge_all m st part pre : 0 <= m -> Forall (fun n => m <= n) st -> box_in st part ->
  exists part', (forall out, foldM (fun '(i, out) r => let* n := rd (pre ++ st) i in let* r := enlarge m n r in Ok (i + 1, out ++ [r])) part (zlen pre, out) = Ok (zlen pre + zlen st, out ++ part')) /\ box_in st part' /\
   Forall2 (fun r r' => fst r' <= fst r /\ snd r <= snd r' /\ m <= snd r' - fst r' /\ (snd r' - fst r' = m \/ r' = r)) part part'.
Proof.
  intros Hm Hs Hb. revert pre Hs. induction Hb as [|n [a b] st part Hr Hb IH]; intros pre Hs.
  - exists []. split; [|split; constructor]. intros out. cbn [foldM]. rewrite zlen_nil, Z.add_0_r, app_nil_r. done.
  - inversion Hs as [|?? Hmn Hs']; subst. simpl in Hr. destruct (enlarge_ok m n a b) as (a' & b' & He & Hx); try lia. destruct (IH (pre ++ [n]) Hs') as (part' & H1 & H2 & H3). exists ((a', b') :: part'). split; [|split].
    + intros out. cbn [foldM]. rewrite (rd_ok _ _ n) by (rewrite zlook_app_r by lia; rewrite Z.sub_diag; done). cbn [bind]. rewrite He. cbn [bind]. specialize (H1 (out ++ [(a', b')])). rewrite zlen_app in H1. change (zlen [n]) with 1 in H1. rewrite <- (app_assoc pre) in H1. cbn [app] in H1. rewrite H1. rewrite zlen_cons, <- app_assoc. do 2 f_equal. lia.
    + constructor; [simpl; lia|done].
    + constructor; [|done]. simpl. repeat split; try lia. destruct Hx as (_ & _ & _ & _ & _ & [Hx|[-> ->]]); [by left|by right].
Qed.
Lemma fmp_ok m st crit red : dim_ok st -> Forall (fun n => 0 <= n <= maxId) st -> zlen crit = grid_nb st -> 0 <= m -> Forall (fun n => m <= n) st ->
  exists r part, FindMinimalPartOf m st crit red = Ok (nb_true crit, r, part) /\ Forall2 (fun c x => crit @ c = Some x) (box_ids st part) r /\
    box_in st part /\ (forall pos, true_at st crit pos -> in_box part pos) /\ Forall (fun r => m <= snd r - fst r) part /\
    (forall a r, part @ a = Some r -> snd r - fst r = m \/ (exists pos, true_at st crit pos /\ pos @ a = Some (fst r)) /\ (exists pos, true_at st crit pos /\ pos @ a = Some (snd r - 1))).
Proof.
  intros Hd Hst Hc Hm Hn. assert (Forall (Z.le 0) st) as Hs0 by (eapply Forall_impl; [exact Hst|]; simpl; lia). unfold FindMinimalPartOf. replace (m <? 0) with false by lia. cbn [ifthrow]. rewrite nbStruct_ok by (try (by apply dim_ok_ne); done). cbn [bind]. rewrite Hc, Z.eqb_refl. cbn [negb ifthrow].
  assert (exists part, (match zlen st with 1 => FindMinimalPartOf1D st crit | 2 => FindMinimalPartOf2D st crit | 3 => FindMinimalPartOf3D st crit | _ => Throw end) = Ok (nb_true crit, part) /\ hull_of st crit part) as (part & -> & Hb & Hin & Htight).
  { unfold dim_ok in Hd. assert (zlen st = 1 \/ zlen st = 2 \/ zlen st = 3) as [E|[E|E]] by lia; rewrite E; [by apply fmp1|by apply fmp2|by apply fmp3]. }
  cbn [bind]. rewrite getDims_ok by (by eapply box_in_le). cbn [bind]. destruct (enlarge_all m st part [] Hm Hn Hb) as (part' & H1 & H2 & H3). specialize (H1 []). cbn [app] in H1. change (@zlen Z []) with 0 in H1. rewrite H1. cbn [bind].
  destruct (extractBool_ok st crit part' red Hd H2 Hc) as (r & -> & Hr). cbn [bind]. exists r, part'. split; [done|]. split; [done|]. split; [done|]. split; [|split].
  - intros pos Ht. specialize (Hin pos Ht). clear -Hin H3. revert pos Hin. induction H3 as [|x y part part' Hx _ IH]; intros pos Hin; inversion Hin; subst; constructor; [lia|]. by apply IH.
  - clear -H3. induction H3; constructor; [lia|done].
  - intros a r' Hr'. pose proof (zlook_Some_lt _ _ _ Hr') as Ha. rewrite zlook_to_nat in Hr' by lia. destruct (Forall2_lookup_r _ _ _ _ _ H3 Hr') as (r0 & Hr0 & Hx & Hy & Hz & [Hw|Hw]); [by left|]. subst r'. rewrite <- zlook_to_nat in Hr0 by lia. destruct (Htight a r0 Hr0) as [E|E]; [left; lia|right; done].
Qed.
Lemma fmp_throw m st crit red : dim_ok st -> Forall (fun n => 0 <= n <= maxId) st -> m < 0 \/ zlen crit <> grid_nb st \/ Exists (fun n => n < m) st -> FindMinimalPartOf m st crit red = Throw.
Proof.
  intros Hd Hst H. assert (Forall (Z.le 0) st) as Hs0 by (eapply Forall_impl; [exact Hst|]; simpl; lia). unfold FindMinimalPartOf. destruct (m <? 0) eqn:E0; [done|]. cbn [ifthrow]. rewrite nbStruct_ok by (try (by apply dim_ok_ne); done). cbn [bind]. destruct (zlen crit =? grid_nb st) eqn:Ec; [|done]. cbn [negb ifthrow].
  assert (exists part, (match zlen st with 1 => FindMinimalPartOf1D st crit | 2 => FindMinimalPartOf2D st crit | 3 => FindMinimalPartOf3D st crit | _ => Throw end) = Ok (nb_true crit, part) /\ hull_of st crit part) as (part & -> & Hb & Hin & Htight).
  { unfold dim_ok in Hd. assert (zlen st = 1 \/ zlen st = 2 \/ zlen st = 3) as [E|[E|E]] by lia; rewrite E; [apply fmp1|apply fmp2|apply fmp3]; try done; lia. }
  cbn [bind]. rewrite getDims_ok by (by eapply box_in_le). cbn [bind]. destruct H as [H|[H|H]]; [lia..|].
  enough (forall pre out, foldM (fun '(i, out) r => let* n := rd (pre ++ st) i in let* r := enlarge m n r in Ok (i + 1, out ++ [r])) part (zlen pre, out) = Throw) as Hx. { specialize (Hx [] []). cbn [app] in Hx. change (@zlen Z []) with 0 in Hx. rewrite Hx. done. }
  clear -H Hb E0. induction Hb as [|n [a b] st part Hr Hb IH]; [by apply Exists_nil in H|]. intros pre out. cbn [foldM]. rewrite (rd_ok _ _ n) by (rewrite zlook_app_r by lia; rewrite Z.sub_diag; done). cbn [bind]. simpl in Hr.
  destruct (Z.lt_ge_cases n m) as [Hlt|Hge]; [by rewrite enlarge_throw|]. destruct (enlarge_ok m n a b) as (a' & b' & -> & _); try lia. cbn [bind]. apply Exists_cons in H as [H|H]; [lia|].
  specialize (IH H (pre ++ [n]) (out ++ [(a', b')])). rewrite zlen_app in IH. change (zlen [n]) with 1 in IH. rewrite <- (app_assoc pre) in IH. exact IH.
Qed.
