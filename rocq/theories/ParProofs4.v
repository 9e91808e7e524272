(** Packs of distributed ids put on the process that owns the slice of the id. *)
From stdpp Require Import sorting.
From Coq Require Import ZifyBool ZifyNat.
From Verif Require Import Base DataArray ArrLib LayoutProofs3 PartDefProofs StdModel StdProofs SlicesModel RenumModel RenumSpec RenumProofs IndexModel IndexSpec IndexProofs3 IndexProofs4 IndexProofs6 FillLib LayoutModel SearchModel SearchSpec SearchProofs2 SetsModel SetsProofs PermProofs SkyModel SkySpec SkyProofs SkyProofs4 SkyProofs5 SkyProofs6 SkyProofs8 BlkModel DecModel DecProofs DecProofs2 ParModel ParProofs ParProofs2 ParProofs3.

Lemma sky2_pack ps s k p : sky2 ps s -> ps @ k = Some p -> pack (s_values s) (s_index s) k p.
Proof. intros H Hk. destruct (agg_pack ps s k p H Hk) as (a & H1 & H2 & H3 & H4 & H5). exists a, (a + zlen p). pose proof (zlen_nonneg p). repeat split; [done|done|lia|lia|lia|done]. Qed.
Lemma skyline_sky2 ps v i u : skyline ps v i -> sky2 ps (Sky u i v).
Proof. intros [-> H]. rewrite (prefix_sums_eq _ _ H). apply sky2_psums. Qed.
Lemma sky2_len ps s : sky2 ps s -> zlen (s_index s) = zlen ps + 1.
Proof. intros (b & a & _ & ->). by rewrite offs_len, zlen_fmap. Qed.
Lemma zchoice {A B} (l : list A) (Q : Z -> A -> B -> Prop) : (forall p a, l @ p = Some a -> exists b, Q p a b) -> exists k, zlen k = zlen l /\ forall p a b, l @ p = Some a -> k @ p = Some b -> Q p a b.
Proof.
  induction l as [|a l IH] using rev_ind; intros H; [exists []; split; [done|]; intros p a b Ha; apply zlook_Some_lt in Ha; change (zlen (@nil A)) with 0 in Ha; lia|].
  destruct IH as (k & Hk & HQ). { intros p x Hx. apply (H p). pose proof (zlook_Some_lt _ _ _ Hx). by rewrite zlook_app_l by lia. }
  destruct (H (zlen l) a (zlook_snoc l a)) as [b Hb]. exists (k ++ [b]). split; [rewrite !zlen_app, Hk; done|]. intros p x y Hx Hy. pose proof (zlook_Some_lt _ _ _ Hx) as Hp. rewrite zlen_app in Hp. change (zlen [a]) with 1 in Hp.
  destruct (decide (p = zlen l)) as [->|]; [rewrite zlook_snoc in Hx; injection Hx as <-; rewrite <- Hk, zlook_snoc in Hy; by injection Hy as <-|].
  rewrite zlook_app_l in Hx by lia. rewrite zlook_app_l in Hy by lia. by apply HQ.
Qed.
Lemma grouped_at bounds (Q : list (list Z)) k a b : bounds @ k = Some a -> bounds @ (k + 1) = Some b -> grouped bounds Q @ k = Some (concat (sub Q a b)).
Proof.
  revert k. induction bounds as [|x t IH]; intros k Ha Hb; [apply zlook_Some_lt in Ha; change (zlen (@nil Z)) with 0 in Ha; lia|].
  pose proof (zlook_Some_lt _ _ _ Ha) as Hk. destruct t as [|y t]; [apply zlook_Some_lt in Hb; change (zlen [x]) with 1 in Hb; lia|].
  change (grouped (x :: y :: t) Q) with (concat (sub Q x y) :: grouped (y :: t) Q). rewrite zlook_cons in Ha. rewrite zlook_cons in Hb. rewrite zlook_cons. destruct (decide (k = 0)) as [E0|E0]; [subst k|replace (k =? 0) with false in Ha |- * by lia].
  - cbn [Z.eqb] in Ha |- *. injection Ha as ->. replace (0 + 1 =? 0) with false in Hb by lia. rewrite zlook_cons in Hb. replace (0 + 1 - 1 =? 0) with true in Hb by lia. by injection Hb as ->.
  - replace (k + 1 =? 0) with false in Hb by lia. apply IH; [done|]. by replace (k - 1 + 1) with (k + 1 - 1) by lia.
Qed.
Lemma grouped_len bounds (Q : list (list Z)) : 0 < zlen bounds -> zlen (grouped bounds Q) = zlen bounds - 1.
Proof.
  induction bounds as [|x t IH]; intros H; [done|]. destruct t as [|y t]; [done|]. change (grouped (x :: y :: t) Q) with (concat (sub Q x y) :: grouped (y :: t) Q).
  assert (Hc : forall (B : Type) (c : B) m, zlen (c :: m) = zlen m + 1) by (intros; unfold zlen; cbn; lia). rewrite (Hc _ _ (grouped _ _)), (Hc _ x). rewrite IH; [lia|]. rewrite Hc. pose proof (zlen_nonneg t). lia.
Qed.
Lemma fmap_concat {A B} (f : A -> B) (l : list (list A)) : f <$> concat l = concat ((fun x : list A => f <$> x) <$> l).
Proof. induction l as [|x l IH]; [done|]. cbn. by rewrite fmap_app, IH. Qed.
Lemma concat_concat {A} (l : list (list (list A))) : concat (concat l) = concat (@concat A <$> l).
Proof. induction l as [|x l IH]; [done|]. cbn. by rewrite concat_app, IH. Qed.
Lemma is_perm_zlen n p : is_perm n p -> 0 <= n -> zlen p = n.
Proof. intros Hp Hn. unfold zlen, is_perm in *. rewrite Hp, seqZ_length. lia. Qed.

(** What a process sends to another one. *)
Definition skySent (world : list (list Z * sky)) (packs : list (list (list Z))) N nb (p r : Z) (x : list Z * list Z * list Z) : Prop :=
  exists ids s ps qs, world @ p = Some (ids, s) /\ packs @ p = Some ps /\ skyline qs x.2 x.1.2 /\ Forall2 (fun v q => lo_ N nb r <= v < hi_ N nb r /\ exists i, ids @ i = Some v /\ ps @ i = Some q) x.1.1 qs /\
    forall i v q, ids @ i = Some v -> ps @ i = Some q -> lo_ N nb r <= v < hi_ N nb r -> exists k, x.1.1 @ k = Some v /\ qs @ k = Some q.
Lemma skyPart_ok (world : list (list Z * sky)) packs N nb p r ids s ps : 0 < N -> 0 <= nb -> 0 <= r < N -> world @ p = Some (ids, s) -> packs @ p = Some ps -> sky2 ps s -> zlen ids = zlen ps ->
  exists x, (let* inside := captured N nb ids r in
      let* cap := select ids inside in
      let* (v, i) := ExtractFromIndexedArrays inside (Some (vec (s_values s))) (Some (vec (s_index s))) in
      let* v := initialised v in let* i := initialised i in
      Ok (cap, i, v)) = Ok x /\ skySent world packs N nb p r x.
Proof.
  intros HN Hnb Hr Hw Hps Hsky Hlen. destruct (capture_ok N nb ids r HN Hnb Hr) as (inside & cap & -> & Es & H1 & H2). cbn [bind]. rewrite Es. cbn [bind].
  destruct (sel_ok ps inside) as (qs & _ & Hqs); [intros i Hi; apply (proj2 H1) in Hi as (v & Hv & _); apply zlook_Some_lt in Hv; lia|].
  destruct (extract_ok (vec (s_values s)) (vec (s_index s)) eq_refl eq_refl eq_refl eq_refl ltac:(rewrite da_nt_vec, (sky2_len ps s Hsky); pose proof (zlen_nonneg ps); lia) inside qs) as (v & i & E & Hv).
  { eapply Forall2_impl; [exact Hqs|]. intros k q Hk. cbn in *. by eapply sky2_pack. }
  rewrite E. cbn [bind]. rewrite !initialised_ok. cbn [bind]. eexists. split; [done|]. exists ids, s, ps, qs. cbn [fst snd]. split; [done|]. split; [done|]. split; [done|].
  assert (L1 : zlen inside = zlen cap) by (apply Forall2_length in H2; unfold zlen; lia). assert (L2 : zlen inside = zlen qs) by (apply Forall2_length in Hqs; unfold zlen; lia). split.
  - apply Forall2_zlook_2; [unfold zlen in *; lia|]. intros k x q Hx Hq. destruct (zlook_lt inside k) as [j Hj]; [apply zlook_Some_lt in Hx; lia|]. pose proof (Forall2_zlook _ _ _ _ _ _ H2 Hj Hx) as X. pose proof (Forall2_zlook _ _ _ _ _ _ Hqs Hj Hq) as Y. cbn in X, Y. split; [|eauto].
    apply zlook_elem, (proj2 H1) in Hj as (w & Hw' & HP). congruence.
  - intros j x q Hx Hq HP. assert (Hin : j ∈ inside) by (apply (proj2 H1); eauto). apply elem_of_zlook in Hin as [k Hk]. exists k. destruct (zlook_lt cap k) as [x' Hx']; [apply zlook_Some_lt in Hk; lia|]. destruct (zlook_lt qs k) as [q' Hq']; [apply zlook_Some_lt in Hk; lia|].
    pose proof (Forall2_zlook _ _ _ _ _ _ H2 Hk Hx') as X. pose proof (Forall2_zlook _ _ _ _ _ _ Hqs Hk Hq') as Y. cbn in X, Y. split; congruence.
Qed.

(** The ids and the packs of a process after the call. *)
Definition gathered (world : list (list Z * sky)) (packs : list (list (list Z))) N nb (r : Z) (x : list Z * sky) : Prop :=
  enumerates (fun v => lo_ N nb r <= v < hi_ N nb r /\ exists p ids s, world @ p = Some (ids, s) /\ v ∈ ids) x.1 /\
  exists qs, sky2 qs x.2 /\ zlen qs = zlen x.1 /\ forall k v q, x.1 @ k = Some v -> qs @ k = Some q ->
    enumerates (fun w => exists p ids s ps i q', world @ p = Some (ids, s) /\ packs @ p = Some ps /\ ids @ i = Some v /\ ps @ i = Some q' /\ w ∈ q') q.
Lemma equi_ok (world : list (list Z * sky)) packs nb : 0 < zlen world -> 0 <= nb -> zlen packs = zlen world ->
  (forall p ids s ps, world @ p = Some (ids, s) -> packs @ p = Some ps -> sky2 ps s /\ zlen ids = zlen ps) ->
  exists out, equiRedistribute world nb = Ok out /\ zlen out = zlen world /\ forall r x, out @ r = Some x -> gathered world packs (zlen world) nb r x.
Proof.
  intros HN Hnb Lpk Hsky. unfold equiRedistribute. cbv zeta. set (N := zlen world) in *.
  match goal with |- context [bind (collect N ?g) _] => destruct (collect_ok N g (fun p l => zlen l = N /\ forall r x, l @ r = Some x -> skySent world packs N nb p r x)) as (parts & Ep & Lp & Hparts) end; [lia| |].
  { intros p Hp. destruct (zlook_lt world p Hp) as [[ids s] Hw]. destruct (zlook_lt packs p) as [ps Hps]; [lia|]. destruct (Hsky p ids s ps Hw Hps) as [K1 K2]. rewrite (rd_ok _ _ _ Hw). cbn [bind].
    match goal with |- exists r, collect N ?g = _ /\ _ => destruct (collect_ok N g (fun r x => skySent world packs N nb p r x)) as (l & El & Ll & Hl') end; [lia| |exists l; done].
    intros r Hr. exact (skyPart_ok world packs N nb p r ids s ps HN Hnb Hr Hw Hps K1 K2). }
  rewrite Ep. cbn [bind]. destruct (exchange parts (fun x => x.1.1) N Lp HN) as (rids & Er & Lr & Hr); [intros p l Hp; by apply (Hparts p l Hp)|]. destruct (exchange parts (fun x => x.1.2) N Lp HN) as (rindex & Ei & Li & Hi); [intros p l Hp; by apply (Hparts p l Hp)|].
  destruct (exchange parts (fun x => x.2) N Lp HN) as (rvals & Ev & Lv & Hv); [intros p l Hp; by apply (Hparts p l Hp)|]. rewrite Er, Ei, Ev. cbn [bind].
  apply collect_ok; [lia|]. intros r Hrr. destruct (Hr r Hrr) as (C & HC & LC & HCat). destruct (Hi r Hrr) as (D & HD & LD & HDat). destruct (Hv r Hrr) as (E & HE & LE & HEat). rewrite (rd_ok _ _ _ HC), (rd_ok _ _ _ HD), (rd_ok _ _ _ HE). cbn [bind].
  rewrite !aggr_ok by (intros ->; unfold zlen in *; cbn in *; lia). cbn [bind].
  assert (Hat : forall p, 0 <= p < N -> exists x, C @ p = Some x.1.1 /\ D @ p = Some x.1.2 /\ E @ p = Some x.2 /\ skySent world packs N nb p r x).
  { intros p Hp. destruct (zlook_lt parts p) as [l Hl]; [lia|]. destruct (Hparts p l Hl) as [P1 P2]. destruct (zlook_lt l r) as [x Hx]; [lia|]. exists x. split; [exact (HCat p l x Hl Hx)|]. split; [exact (HDat p l x Hl Hx)|]. split; [exact (HEat p l x Hl Hx)|]. by apply P2. }
  destruct (zchoice C (fun p c qs => exists x ids s ps, D @ p = Some x.1.2 /\ E @ p = Some x.2 /\ c = x.1.1 /\ world @ p = Some (ids, s) /\ packs @ p = Some ps /\ skyline qs x.2 x.1.2 /\
     Forall2 (fun v q => lo_ N nb r <= v < hi_ N nb r /\ exists i, ids @ i = Some v /\ ps @ i = Some q) c qs /\ forall i v q, ids @ i = Some v -> ps @ i = Some q -> lo_ N nb r <= v < hi_ N nb r -> exists k, c @ k = Some v /\ qs @ k = Some q)) as (pss & Lpss & Hpss).
  { intros p c Hc. destruct (Hat p) as (x & X1 & X2 & X3 & (ids & s & ps & qs & Y1 & Y2 & Y3 & Y4 & Y5)); [apply zlook_Some_lt in Hc; lia|]. rewrite Hc in X1. injection X1 as ->. exists qs, x, ids, s, ps. done. }
  destruct (aggregateIndexes_ok ((fun x => Some (vec x)) <$> D) ((fun qs : list (list Z) => zlen <$> qs) <$> pss)) as (index & Eix & Hix).
  { intros E0. destruct D; [unfold zlen in *; cbn in *; lia|done]. }
  { apply Forall2_fmap, Forall2_zlook_2; [unfold zlen in *; lia|]. intros p d qs Hd Hq. destruct (zlook_lt C p) as [c Hc]; [apply zlook_Some_lt in Hd; lia|]. destruct (Hpss p c qs Hc Hq) as (x & ids & s & ps & X1 & _ & _ & _ & _ & X2 & _). rewrite Hd in X1. injection X1 as ->. exists (vec x.1.2). split; [done|]. split; [done|]. split; [done|]. apply X2. }
  rewrite Eix. cbn [bind]. rewrite initialised_ok. cbn [bind].
  assert (Hval : concat E = concat (concat pss)).
  { rewrite concat_concat. f_equal. apply zlook_ext_lt; [rewrite zlen_fmap; lia|]. intros p Hp. destruct (zlook_lt C p) as [c Hc]; [lia|]. destruct (zlook_lt pss p) as [qs Hq]; [lia|]. destruct (Hpss p c qs Hc Hq) as (x & ids & s & ps & _ & X1 & _ & _ & _ & X2 & _). rewrite X1, zlook_fmap, Hq. cbn. f_equal. apply X2. }
  set (P := concat pss) in *. assert (HskyP : skyline P (concat E) index) by (split; [done|]; unfold P; by rewrite fmap_concat).
  assert (HCP : Forall2 (fun v q => lo_ N nb r <= v < hi_ N nb r /\ exists p ids s ps i, world @ p = Some (ids, s) /\ packs @ p = Some ps /\ ids @ i = Some v /\ ps @ i = Some q) (concat C) P).
  { apply Forall2_concat, Forall2_zlook_2; [unfold zlen in *; lia|]. intros p c qs Hc Hq. destruct (Hpss p c qs Hc Hq) as (x & ids & s & ps & _ & _ & _ & X1 & X2 & _ & X3 & _). eapply Forall2_impl; [exact X3|]. intros v q [B (i & I1 & I2)]. split; [done|]. exists p, ids, s, ps, i. done. }
  assert (HPC : forall p ids s ps i v q, world @ p = Some (ids, s) -> packs @ p = Some ps -> ids @ i = Some v -> ps @ i = Some q -> lo_ N nb r <= v < hi_ N nb r -> exists j, concat C @ j = Some v /\ P @ j = Some q).
  { intros p ids s ps i v q Hw Hps Hid Hpi HP. pose proof (zlook_Some_lt _ _ _ Hw) as Hp. fold N in Hp. destruct (zlook_lt C p) as [c Hc]; [lia|]. destruct (zlook_lt pss p) as [qs Hq]; [lia|]. destruct (Hpss p c qs Hc Hq) as (x & ids' & s' & ps' & _ & _ & _ & X1 & X2 & _ & _ & X3). rewrite Hw in X1. injection X1 as <- <-. rewrite Hps in X2. injection X2 as <-.
    destruct (X3 i v q Hid Hpi HP) as (k & K1 & K2). exists (zsum (take (Z.to_nat p) (zlen <$> C)) + k). split; [rewrite (concat_at C p c k Hc); [done|by apply zlook_Some_lt in K1]|].
    assert (zlen <$> C = zlen <$> pss) as ->; [|unfold P; rewrite (concat_at pss p qs k Hq); [done|by apply zlook_Some_lt in K2]].
    apply zlook_ext_lt; [rewrite !zlen_fmap; lia|]. intros y Hy. rewrite zlen_fmap in Hy. destruct (zlook_lt C y) as [c' Hc']; [lia|]. destruct (zlook_lt pss y) as [q' Hq']; [lia|]. rewrite !zlook_fmap, Hc', Hq'. cbn. f_equal. destruct (Hpss y c' q' Hc' Hq') as (? & ? & ? & ? & _ & _ & _ & _ & _ & _ & HF & _). apply Forall2_length in HF. unfold zlen. lia. }
  assert (LP : zlen (concat C) = zlen P) by (apply Forall2_length in HCP; unfold zlen; lia).
  destruct (ordering_ok (concat C)) as (s & pm & u & b & Eord & Hperm & Eu & G & Ls & Hpm & Hpat). rewrite Eord. cbn [bind]. pose proof (zlen_nonneg (concat C)) as HCn. assert (Lpm : zlen pm = zlen (concat C)) by (by apply is_perm_zlen).
  destruct (sel_ok P pm) as (Q & _ & HQ). { intros j Hj. unfold is_perm in Hpm. rewrite Hpm in Hj. apply elem_of_seqZ in Hj. lia. }
  assert (LQ : zlen Q = zlen (concat C)) by (apply Forall2_length in HQ; unfold zlen in *; lia).
  destruct (extract_ok (vec (concat E)) (vec index) eq_refl eq_refl eq_refl eq_refl ltac:(rewrite da_nt_vec, (proj1 (proj2 HskyP)), zlen_fmap; pose proof (zlen_nonneg P); lia) pm Q) as (v & i & Ex & Hsk).
  { eapply Forall2_impl; [exact HQ|]. intros k q Hk. cbn in *. eapply sky_pack; [exact HskyP|done]. }
  rewrite Ex. cbn [bind]. rewrite !initialised_ok. cbn [bind]. rewrite Eu. cbn [bind].
  destruct G as (G1 & G2 & G3 & G4 & G5 & G6 & G7). pose proof (zlen_nonneg u) as Hun.
  destruct (group_ok Q (Sky [] i v) b) as (s1 & Es1 & Hs1); [by apply skyline_sky2|intros ->; unfold zlen in *; cbn in *; lia| | |].
  { intros a c x y Hac Hx Hy. pose proof (G3 a c x y Hac Hx Hy). lia. }
  { intros k Hk. apply elem_of_zlook in Hk as [m Hm]. pose proof (zlook_Some_lt _ _ _ Hm) as Bm. split.
    - destruct (decide (m = 0)) as [->|]; [rewrite G5 in Hm; injection Hm as <-; lia|]. pose proof (G3 0 m 0 k ltac:(lia) G5 Hm). lia.
    - destruct (decide (m = zlen u)) as [->|]; [rewrite G6 in Hm; injection Hm as <-; lia|]. pose proof (G3 m (zlen u) k (zlen s) ltac:(lia) Hm G6). lia. }
  rewrite Es1. cbn [bind]. destruct (unique_full _ _ Hs1) as (s2 & qs & Es2 & Hs2 & HF). rewrite Es2. cbn [bind].
  assert (Lg : zlen (grouped b Q) = zlen u) by (rewrite grouped_len; lia). assert (Lqs : zlen qs = zlen u) by (apply Forall2_length in HF; unfold zlen in *; lia).
  unfold newPara. assert (zlen (s_index s2) = zlen qs + 1) as Lix by (destruct Hs2 as (bf & af & _ & ->); rewrite offs_len, zlen_fmap; lia). replace (zlen (s_index s2) - 1 =? zlen u) with true by lia. cbn [negb ifthrow].
  eexists. split; [done|]. split; cbn [fst snd].
  - split; [done|]. intros x. rewrite G2, Hperm. split.
    + intros Hx. apply elem_of_zlook in Hx as [j Hj]. destruct (zlook_lt P j) as [q Hq]; [apply zlook_Some_lt in Hj; lia|]. destruct (Forall2_zlook _ _ _ _ _ _ HCP Hj Hq) as (B & p & ids & s' & ps & m & W1 & _ & W2 & _). split; [done|]. exists p, ids, s'. split; [done|]. by eapply zlook_elem.
    + intros [B (p & ids & s' & Hw & Hx)]. apply elem_of_zlook in Hx as [m Hm]. destruct (zlook_lt packs p) as [ps Hps]; [apply zlook_Some_lt in Hw; lia|]. destruct (Hsky p ids s' ps Hw Hps) as [_ K]. destruct (zlook_lt ps m) as [q Hq]; [apply zlook_Some_lt in Hm; lia|]. destruct (HPC p ids s' ps m x q Hw Hps Hm Hq B) as (j & Hj & _). by eapply zlook_elem.
  - exists qs. split; [done|]. split; [done|]. intros k x q Hx Hq. destruct (G7 k x Hx) as (lo & hi & B1 & B2 & B3 & B4 & B5). pose proof (grouped_at b Q k lo hi B1 B2) as Hg. pose proof (Forall2_zlook _ _ _ _ _ _ HF Hg Hq) as [S1 S2]. split; [done|]. intros w. rewrite S2, concat_elem. split.
    + intros (m & q' & Hm & Hw). pose proof (zlook_Some_lt _ _ _ Hm) as Bm. rewrite zlen_sub in Bm by lia. rewrite FillLib.zlook_sub in Hm by lia. destruct (perm_at _ _ (lo + m) Hpm HCn ltac:(lia)) as (j & Hj & Bj). pose proof (Forall2_zlook _ _ _ _ _ _ HQ Hj Hm) as Hq'. cbn in Hq'.
      assert (HCj : concat C @ j = Some x) by (rewrite (Hpat _ _ Hj); apply B5; lia). destruct (Forall2_zlook _ _ _ _ _ _ HCP HCj Hq') as (B & p & ids & s' & ps & e & W1 & W2 & W3 & W4). exists p, ids, s', ps, e, q'. done.
    + intros (p & ids & s' & ps & e & q' & W1 & W2 & W3 & W4 & W5). assert (Bx : lo_ N nb r <= x < hi_ N nb r).
      { assert (Hxs : x ∈ concat C) by (rewrite <- Hperm, <- G2; by eapply zlook_elem). apply elem_of_zlook in Hxs as [j Hj]. destruct (zlook_lt P j) as [q0 Hq0]; [apply zlook_Some_lt in Hj; lia|]. apply (Forall2_zlook _ _ _ _ _ _ HCP Hj Hq0). }
      destruct (HPC p ids s' ps e x q' W1 W2 W3 W4 Bx) as (j & J1 & J2). assert (Hjp : j ∈ pm) by (unfold is_perm in Hpm; rewrite Hpm; apply elem_of_seqZ; apply zlook_Some_lt in J1; lia). apply elem_of_zlook in Hjp as [m Hm].
      assert (Hsm : s @ m = Some x) by (by rewrite <- (Hpat _ _ Hm)). apply B5 in Hsm. exists (m - lo), q'. split; [|done]. rewrite FillLib.zlook_sub by lia. replace (lo + (m - lo)) with m by lia. destruct (zlook_lt Q m) as [q0 Hq0]; [lia|]. pose proof (Forall2_zlook _ _ _ _ _ _ HQ Hm Hq0) as Y. cbn in Y. congruence.
Qed.
