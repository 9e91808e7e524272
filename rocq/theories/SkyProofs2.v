From Verif Require Import Base DataArray ArrLib IndexSpec FillLib StdModel SlicesModel RenumModel IndexModel LayoutModel SkyModel SkySpec SkyProofs.
From Coq Require Import ZifyBool ZifyNat.

(** * Locating a pack. *)
Lemma sky2_at a p b s : sky2 (a ++ p :: b) s -> exists x y H,
  s_values s = x ++ p ++ y /\ zlen H = zlen a /\ s_index s = H ++ zlen x :: offs (zlen x + zlen p) (zlen <$> b) /\
  s_index s @ zlen a = Some (zlen x) /\ s_index s @ (zlen a + 1) = Some (zlen x + zlen p) /\
  zlen (s_index s) = zlen a + zlen b + 2 /\
  forall m, laid (a ++ m ++ b) (x ++ concat m ++ y) (H ++ offs (zlen x) (zlen <$> (m ++ b))).
Proof.
  intros Hs. destruct (laid_mid a [p] b _ _ Hs) as (x & y & H & Hv & Hl & Hi & _ & Hm). exists x, y, H.
  simpl concat in Hv. rewrite app_nil_r in Hv. change ([p] ++ b) with (p :: b) in Hi. rewrite fmap_cons, offs_cons in Hi.
  pose proof (zlen_nonneg a).
  split; [done|]. split; [done|]. split; [done|]. rewrite Hi. split; [|split; [|split; [|done]]].
  - rewrite zlook_app_r by lia. by rewrite Hl, Z.sub_diag.
  - rewrite zlook_app_r by lia. rewrite zlook_cons. destruct (_ =? 0) eqn:E; [lia|]. replace (zlen a + 1 - zlen H - 1) with 0 by lia. apply offs_hd.
  - rewrite zlen_app, zlen_cons, offs_len, zlen_fmap. lia.
Qed.
Lemma len2 ps s : sky2 ps s -> zlen (s_index s) = zlen ps + 1.
Proof. intros (x & y & _ & ->). by rewrite offs_len, zlen_fmap. Qed.

Lemma getSimple_ok a p b s : sky2 (a ++ p :: b) s -> getSimplePackSafe s (zlen a) = Ok p.
Proof.
  intros Hs. destruct (sky2_at _ _ _ _ Hs) as (x & y & H & Hv & Hl & Hi & H0 & H1 & Hn & _). pose proof (zlen_nonneg a). pose proof (zlen_nonneg b).
  unfold getSimplePackSafe. replace ((_ <? 0) || _) with false by lia. cbn [ifthrow]. rewrite (rd_ok _ _ _ H1), (rd_ok _ _ _ H0). cbn [bind].
  rewrite Hv. apply save_mid; done.
Qed.
Lemma getSimple_throw ps s k : sky2 ps s -> k < 0 \/ zlen ps < k -> getSimplePackSafe s k = Throw.
Proof. intros Hs Hk. pose proof (len2 _ _ Hs). unfold getSimplePackSafe. replace ((_ <? 0) || _) with true by lia. done. Qed.
Lemma getSimple_end ps s : sky2 ps s -> getSimplePackSafe s (zlen ps) = UB.
Proof.
  intros Hs. pose proof (len2 _ _ Hs). pose proof (zlen_nonneg ps). unfold getSimplePackSafe. replace ((_ <? 0) || _) with false by lia. cbn [ifthrow].
  rewrite rd_ub by lia. done.
Qed.

(** * Deleting. *)
Lemma deleteSimple_ok a p b s : sky2 (a ++ p :: b) s -> p <> [] ->
  exists s', deleteSimplePack false s (zlen a) = Ok s' /\ sky2 (a ++ b) s' /\ s_super s' = s_super s.
Proof.
  intros Hs Hp. destruct (sky2_at _ _ _ _ Hs) as (x & y & H & Hv & Hl & Hi & H0 & H1 & Hn & Hm). pose proof (zlen_nonneg a). pose proof (zlen_nonneg b).
  assert (0 < zlen p) as Hp0 by (destruct p; [done|]; rewrite zlen_cons; pose proof (zlen_nonneg p); lia).
  unfold deleteSimplePack, validIndex. replace ((_ <? 0) || _) with false by lia. cbn [ifthrow]. rewrite (rd_ok _ _ _ H0), (rd_ok _ _ _ H1). cbn [bind].
  replace (zlen x - (zlen x + zlen p) <? 0) with true by lia. rewrite Hv.
  assert (zlen (x ++ p ++ y) = zlen x + zlen p + zlen y) as Hlv by (rewrite !zlen_app; lia).
  destruct (del_block x p y (zlen x + zlen p) (zlen (x ++ p ++ y)) (zlen x) (zlen (x ++ p ++ y) + (zlen x - (zlen x + zlen p)))) as (r & -> & Hr & Hre); try lia.
  cbn [bind]. rewrite Hre. cbn [bind]. rewrite Hn. rewrite Hi.
  destruct (del_block H [zlen x] (offs (zlen x + zlen p) (zlen <$> b)) (zlen a + 1) (zlen a + zlen b + 2) (zlen a) (zlen a + zlen b + 1)) as (r2 & Hr2 & Hlr2 & Hre2);
    try (rewrite ?offs_len, ?zlen_fmap, ?zlen_cons, ?zlen_nil; lia).
  simpl app in Hr2. rewrite Hr2. cbn [bind]. rewrite <- app_assoc.
  (* the loop runs on the cells kept *)
  assert (addFrom (H ++ offs (zlen x + zlen p) (zlen <$> b) ++ r2) (zlen a) (zlen a + zlen b + 2 - 1) (zlen x - (zlen x + zlen p)) =
    Ok ((H ++ offs (zlen x) (zlen <$> b)) ++ r2)) as Hadd.
  { rewrite addFrom_offs by (rewrite ?zlen_fmap; lia). rewrite <- app_assoc. do 4 f_equal. lia. }
  rewrite Hadd. cbn [bind]. rewrite reAlloc_ok by (rewrite zlen_app, offs_len, zlen_fmap; lia). cbn [bind]. eexists. split; [done|]. split; [|done].
  specialize (Hm []). simpl in Hm. exact Hm.
Qed.
Lemma deleteSimple_empty a b s strict : sky2 (a ++ [] :: b) s -> deleteSimplePack strict s (zlen a) = Throw.
Proof.
  intros Hs. destruct (sky2_at _ _ _ _ Hs) as (x & y & H & Hv & Hl & Hi & H0 & H1 & Hn & Hm). pose proof (zlen_nonneg a). pose proof (zlen_nonneg b).
  unfold deleteSimplePack, validIndex. replace ((_ <? 0) || _) with false by lia. cbn [ifthrow]. rewrite (rd_ok _ _ _ H0), (rd_ok _ _ _ H1). cbn [bind].
  rewrite zlen_nil. replace (zlen x - (zlen x + 0) <? 0) with false by lia. done.
Qed.

(** * Three levels. *)
Lemma sky3_at A qs B s : sky3 (A ++ qs :: B) s -> exists X Y H,
  sky2 (X ++ qs ++ Y) s /\ zlen H = zlen A /\ s_super s = H ++ zlen X :: offs (zlen X + zlen qs) (zlen <$> B) /\
  s_super s @ zlen A = Some (zlen X) /\ s_super s @ (zlen A + 1) = Some (zlen X + zlen qs) /\ zlen (s_super s) = zlen A + zlen B + 2 /\
  forall qs' s', sky2 (X ++ qs' ++ Y) s' -> s_super s' = H ++ zlen X :: offs (zlen X + zlen qs') (zlen <$> B) -> sky3 (A ++ qs' :: B) s'.
Proof.
  intros (ps & Hl & Hs). destruct (laid_mid A [qs] B _ _ Hl) as (X & Y & H & -> & HH & Hi & _ & Hm). exists X, Y, H.
  change (concat [qs]) with (qs ++ []) in Hs. rewrite app_nil_r in Hs. change ([qs] ++ B) with (qs :: B) in Hi. rewrite fmap_cons, offs_cons in Hi.
  pose proof (zlen_nonneg A).
  split; [done|]. split; [done|]. split; [done|]. rewrite Hi. split; [|split; [|split]].
  - rewrite zlook_app_r by lia. by rewrite HH, Z.sub_diag.
  - rewrite zlook_app_r by lia. rewrite zlook_cons. destruct (_ =? 0) eqn:E; [lia|]. replace (zlen A + 1 - zlen H - 1) with 0 by lia. apply offs_hd.
  - rewrite zlen_app, zlen_cons, offs_len, zlen_fmap. lia.
  - intros qs' s' Hs' Hsu. exists (X ++ qs' ++ Y). split; [|done]. specialize (Hm [qs']).
    change (concat [qs']) with (qs' ++ []) in Hm. rewrite app_nil_r in Hm. change ([qs'] ++ B) with (qs' :: B) in Hm. rewrite fmap_cons, offs_cons in Hm.
    rewrite Hsu. exact Hm.
Qed.
Lemma valid_at {T} (A : list (list (list Z))) a p b (B : list (list (list Z))) s (k : Z -> res T) (X : list (list Z)) : s_super s @ zlen A = Some (zlen X) -> zlen (s_super s) = zlen A + zlen B + 2 ->
  sky2 ((X ++ a) ++ p :: b) s -> checkSuperIndex s (validSuperIndexAndIndex s (zlen A) (zlen a) k) = k (zlen (X ++ a)).
Proof.
  intros H0 Hn Hs. pose proof (len2 _ _ Hs) as Hl. rewrite !zlen_app, zlen_cons in Hl.
  pose proof (zlen_nonneg A). pose proof (zlen_nonneg a). pose proof (zlen_nonneg b). pose proof (zlen_nonneg B). pose proof (zlen_nonneg X).
  unfold checkSuperIndex, validSuperIndexAndIndex, validSuperIndex. replace (zlen (s_super s) =? 0) with false by lia. cbn [ifthrow].
  replace ((_ <? 0) || _) with false by lia. cbn [ifthrow]. rewrite (rd_ok _ _ _ H0). cbn [bind].
  replace ((zlen X + zlen a <? 0) || _) with false by lia. cbn [ifthrow]. by rewrite zlen_app.
Qed.
Lemma deletePack_ok A a p b B s : sky3 (A ++ (a ++ p :: b) :: B) s ->
  exists s', deletePack false s (zlen A) (zlen a) = Ok s' /\ sky3 (A ++ (a ++ b) :: B) s'.
Proof.
  intros Hs3. destruct (sky3_at _ _ _ _ Hs3) as (X & Y & H' & Hs & HH & Hsu & S0 & S1 & Sn & Hm3).
  assert (sky2 ((X ++ a) ++ p :: (b ++ Y)) s) as Hs2 by (revert Hs; rewrite <- !app_assoc; done).
  unfold deletePack. erewrite (valid_at A a p (b ++ Y) B s _ X S0 Sn Hs2). set (a' := X ++ a) in *. set (b' := b ++ Y) in *.
  destruct (sky2_at _ _ _ _ Hs2) as (x & y & H & Hv & Hl & Hi & H0 & H1 & Hn & Hm). pose proof (zlen_nonneg a'). pose proof (zlen_nonneg b').
  rewrite (rd_ok _ _ _ H0), (rd_ok _ _ _ H1). cbn [bind]. rewrite Hv.
  assert (zlen (x ++ p ++ y) = zlen x + zlen p + zlen y) as Hlv by (rewrite !zlen_app; lia).
  destruct (del_block x p y (zlen x + zlen p) (zlen (x ++ p ++ y)) (zlen x) (zlen (x ++ p ++ y) - (zlen x + zlen p - zlen x))) as (r & -> & Hr & Hre); try lia.
  cbn [bind]. rewrite Hre. cbn [bind]. rewrite Hn. rewrite Hi.
  destruct (del_block H [zlen x] (offs (zlen x + zlen p) (zlen <$> b')) (zlen a' + 1) (zlen a' + zlen b' + 2) (zlen a') (zlen a' + zlen b' + 2 - 1)) as (r2 & Hr2 & Hlr2 & Hre2);
    try (rewrite ?offs_len, ?zlen_fmap, ?zlen_cons, ?zlen_nil; lia).
  simpl app in Hr2. rewrite Hr2. cbn [bind]. rewrite Hre2. cbn [bind].
  rewrite addFrom_offs' by (rewrite ?zlen_fmap; lia). cbn [bind]. rewrite Sn, Hsu.
  change (H' ++ zlen X :: offs (zlen X + zlen (a ++ p :: b)) (zlen <$> B)) with (H' ++ [zlen X] ++ offs (zlen X + zlen (a ++ p :: b)) (zlen <$> B)). rewrite app_assoc.
  rewrite addFrom_offs' by (rewrite ?zlen_app, ?zlen_cons, ?zlen_nil, ?zlen_fmap; lia). cbn [bind]. eexists. split; [done|].
  apply (Hm3 (a ++ b)).
  - specialize (Hm []). simpl in Hm. unfold sky2. simpl.
    replace (zlen x + zlen p + - (zlen x + zlen p - zlen x)) with (zlen x) by lia. unfold a', b' in *. rewrite <- !app_assoc in *. exact Hm.
  - simpl. rewrite <- app_assoc. simpl. do 3 f_equal. rewrite !zlen_app, zlen_cons. lia.
Qed.

(** * Replacing. *)
Lemma replaceAt_ok a p b s q : sky2 (a ++ p :: b) s -> exists s', replaceAt false s (zlen a) q = Ok s' /\ sky2 (a ++ q :: b) s' /\ s_super s' = s_super s.
Proof.
  intros Hs. destruct (sky2_at _ _ _ _ Hs) as (x & y & H & Hv & Hl & Hi & H0 & H1 & Hn & Hm). pose proof (zlen_nonneg a). pose proof (zlen_nonneg b).
  pose proof (zlen_nonneg p). pose proof (zlen_nonneg q). pose proof (zlen_nonneg x). pose proof (zlen_nonneg y).
  unfold replaceAt. rewrite (rd_ok _ _ _ H0), (rd_ok _ _ _ H1). cbn [bind]. rewrite Hv.
  assert (zlen (x ++ p ++ y) = zlen x + zlen p + zlen y) as Hlv by (rewrite !zlen_app; lia). rewrite Hlv.
  set (delta := zlen q - (zlen x + zlen p - zlen x)).
  assert (exists g, zlen g = zlen q /\ (if negb (delta =? 0) then
    let* v := (if 0 <? delta then reAllocC (Some <$> (x ++ p ++ y)) (zlen x + zlen p + zlen y + delta) else Ok (Some <$> (x ++ p ++ y))) in
    let* v := moveIn false v (zlen x + zlen p) (zlen x + zlen p + zlen y) (zlen x + zlen p + delta) in
    (if delta <? 0 then reAllocC v (zlen x + zlen p + zlen y + delta) else Ok v) else Ok (Some <$> (x ++ p ++ y))) = Ok ((Some <$> x) ++ g ++ (Some <$> y))) as (g & Hg & ->).
  { destruct (delta =? 0) eqn:E0; cbn [negb].
    - exists (Some <$> p). split; [rewrite zlen_fmap; lia|]. by rewrite !fmap_app.
    - destruct (0 <? delta) eqn:E1.
      + destruct (ins_block (x ++ p) y delta (zlen x + zlen p + zlen y)) as (v & g & Hre & Hlv2 & Hmv & Hg); [lia|rewrite zlen_app; lia|].
        rewrite app_assoc, Hre. cbn [bind]. rewrite zlen_app in Hmv. rewrite Hmv. cbn [bind]. replace (delta <? 0) with false by lia.
        exists ((Some <$> p) ++ g). split; [rewrite zlen_app, zlen_fmap; lia|]. rewrite fmap_app, <- !app_assoc. done.
      + cbn [bind]. replace (delta <? 0) with true by lia. exists (Some <$> take (Z.to_nat (zlen q)) p). split; [rewrite zlen_fmap, zlen_take; lia|].
        assert (p = take (Z.to_nat (zlen q)) p ++ drop (Z.to_nat (zlen q)) p) as Hp by (by rewrite take_drop).
        set (p1 := take (Z.to_nat (zlen q)) p) in *. set (p2 := drop (Z.to_nat (zlen q)) p) in *.
        assert (zlen p1 = zlen q) as Hp1 by (unfold p1; rewrite zlen_take; lia).
        assert (zlen p2 = zlen p - zlen q) as Hp2 by (unfold p2; rewrite zlen_drop; lia).
        destruct (del_block (Some <$> (x ++ p1)) (Some <$> p2) (Some <$> y) (zlen x + zlen p) (zlen x + zlen p + zlen y) (zlen x + zlen p + delta) (zlen x + zlen p + zlen y + delta)) as (r & Hmv & Hr & _).
        all: try (rewrite ?zlen_fmap, ?zlen_app; lia).
        replace (Some <$> x ++ p ++ y) with ((Some <$> x ++ p1) ++ (Some <$> p2) ++ (Some <$> y)) by (rewrite Hp at 1; rewrite !fmap_app, <- !app_assoc; done).
        rewrite Hmv. cbn [bind]. unfold reAllocC. replace (_ <? 0) with false by lia. cbn [ubif]. f_equal.
        rewrite take_z by (rewrite zlen_app, !zlen_fmap, zlen_app; lia).
        rewrite malloc_neg, app_nil_r by (rewrite !zlen_app, !zlen_fmap, zlen_app in *; lia). rewrite fmap_app, <- !app_assoc. done. }
  cbn [bind]. rewrite (restore_mid (Some <$> x) g (Some <$> q)) by (rewrite ?zlen_fmap; done). cbn [bind].
  rewrite <- !fmap_app, initialised_ok. cbn [bind]. rewrite Hn, Hi.
  change (H ++ zlen x :: offs (zlen x + zlen p) (zlen <$> b)) with (H ++ [zlen x] ++ offs (zlen x + zlen p) (zlen <$> b)). rewrite app_assoc.
  rewrite addFrom_offs' by (rewrite ?zlen_app, ?zlen_cons, ?zlen_nil, ?zlen_fmap; lia). cbn [bind]. eexists. split; [done|]. split; [|done].
  specialize (Hm [q]). change (concat [q]) with (q ++ []) in Hm. rewrite app_nil_r in Hm. change ([q] ++ b) with (q :: b) in Hm. rewrite fmap_cons, offs_cons in Hm.
  unfold sky2. simpl. rewrite <- app_assoc. simpl. replace (zlen x + zlen p + delta) with (zlen x + zlen q) by (unfold delta; lia). exact Hm.
Qed.


Lemma replaceSimple_ok a p b s q : sky2 (a ++ p :: b) s -> exists s', replaceSimplePack false s (zlen a) q = Ok s' /\ sky2 (a ++ q :: b) s' /\ s_super s' = s_super s.
Proof.
  intros Hs. pose proof (len2 _ _ Hs) as Hl. rewrite zlen_app, zlen_cons in Hl. pose proof (zlen_nonneg a). pose proof (zlen_nonneg b).
  unfold replaceSimplePack, validIndex. replace ((_ <? 0) || _) with false by lia. cbn [ifthrow]. by apply (replaceAt_ok a p b).
Qed.
Lemma replacePack_ok A a p b B s q : sky3 (A ++ (a ++ p :: b) :: B) s ->
  exists s', replacePack false s (zlen A) (zlen a) q = Ok s' /\ sky3 (A ++ (a ++ q :: b) :: B) s'.
Proof.
  intros Hs3. destruct (sky3_at _ _ _ _ Hs3) as (X & Y & H' & Hs & HH & Hsu & S0 & S1 & Sn & Hm3).
  assert (sky2 ((X ++ a) ++ p :: (b ++ Y)) s) as Hs2 by (revert Hs; rewrite <- !app_assoc; done).
  unfold replacePack. erewrite (valid_at A a p (b ++ Y) B s _ X S0 Sn Hs2).
  destruct (replaceAt_ok _ _ _ _ q Hs2) as (s' & -> & Hs' & Hsu'). exists s'. split; [done|]. apply (Hm3 (a ++ q :: b)).
  - revert Hs'. rewrite <- !app_assoc. done.
  - rewrite Hsu', Hsu. rewrite !zlen_app, !zlen_cons. done.
Qed.

(** * Adding at the end of a super pack. *)
Lemma sky2_between X Y s : sky2 (X ++ Y) s -> exists x y H, s_values s = x ++ y /\ zlen H = zlen X /\ s_index s = H ++ offs (zlen x) (zlen <$> Y) /\
  forall q, sky2 (X ++ q :: Y) (Sky [] (H ++ zlen x :: offs (zlen x + zlen q) (zlen <$> Y)) (x ++ q ++ y)).
Proof.
  intros Hs. destruct (laid_mid X [] Y _ _ Hs) as (x & y & H & Hv & HH & Hi & _ & Hm). exists x, y, H. split; [done|]. split; [done|]. split; [done|].
  intros q. specialize (Hm [q]). change (concat [q]) with (q ++ []) in Hm. rewrite app_nil_r in Hm. change ([q] ++ Y) with (q :: Y) in Hm.
  rewrite fmap_cons, offs_cons in Hm. exact Hm.
Qed.
Lemma pushBack_ok A qs B s q : sky3 (A ++ qs :: B) s -> exists s', pushBackPack false s (zlen A) q = Ok s' /\ sky3 (A ++ (qs ++ [q]) :: B) s'.
Proof.
  intros Hs3. destruct (sky3_at _ _ _ _ Hs3) as (X & Y & H' & Hs & HH & Hsu & S0 & S1 & Sn & Hm3).
  rewrite app_assoc in Hs. destruct (sky2_between _ _ _ Hs) as (x & y & H & Hv & Hl & Hi & Hm).
  pose proof (zlen_nonneg A). pose proof (zlen_nonneg B). pose proof (zlen_nonneg q). pose proof (zlen_nonneg x). pose proof (zlen_nonneg y). pose proof (zlen_nonneg X). pose proof (zlen_nonneg qs). pose proof (zlen_nonneg Y).
  unfold pushBackPack, checkSuperIndex, validSuperIndex. replace (_ =? 0) with false by lia. cbn [ifthrow].
  replace ((_ <? 0) || _) with false by lia. cbn [ifthrow]. rewrite (rd_ok _ _ _ S1). cbn [bind].
  rewrite Hv. destruct (ins_block x y (zlen q) (zlen (x ++ y))) as (v & g & -> & Hlv & Hmv & Hg); [lia|by rewrite zlen_app|]. cbn [bind].
  rewrite zlen_app in Hl. assert (s_index s @ (zlen X + zlen qs) = Some (zlen x)) as I0 by (rewrite Hi, zlook_app_r by lia; replace (zlen X + zlen qs - zlen H) with 0 by lia; apply offs_hd).
  rewrite (rd_ok _ _ _ I0). cbn [bind]. rewrite Hmv. cbn [bind]. rewrite restore_mid by (rewrite ?zlen_fmap; lia). cbn [bind].
  rewrite <- !fmap_app, initialised_ok. cbn [bind].
  assert (exists t, offs (zlen x) (zlen <$> Y) = zlen x :: t /\ (fun v => v + zlen q) <$> t = tail (offs (zlen x + zlen q) (zlen <$> Y)) /\ zlen t = zlen Y) as (t & Ht & Htq & Htl).
  { destruct Y as [|r Y]; [exists []; done|]. exists (offs (zlen x + zlen r) (zlen <$> Y)). split; [done|]. rewrite offs_shift. split.
    - rewrite fmap_cons. simpl. f_equal. lia.
    - rewrite offs_len, zlen_fmap, zlen_cons. lia. }
  rewrite Hi, Ht. change (H ++ zlen x :: t) with (H ++ [zlen x] ++ t). rewrite app_assoc.
  remember (H ++ [zlen x]) as Hx eqn:EHx. assert (zlen Hx = zlen X + zlen qs + 1) as HHx by (rewrite EHx; rewrite zlen_app, zlen_cons, zlen_nil; lia).
  destruct (ins_block Hx t 1 (zlen (Hx ++ t))) as (v2 & g2 & -> & Hlv2 & Hmv2 & Hg2); [lia|by rewrite zlen_app|]. cbn [bind].
  replace (zlen X + zlen qs + 2) with (zlen Hx + 1) by lia. rewrite <- HHx, Hmv2. cbn [bind].
  destruct g2 as [|c [|c2 g3]]; [rewrite zlen_nil in Hg2; lia| |rewrite !zlen_cons in Hg2; pose proof (zlen_nonneg g3); lia].
  rewrite (rdc_ok _ _ (zlen x)).
  2: { rewrite zlook_app_l by (rewrite zlen_fmap; lia). rewrite zlook_fmap. rewrite EHx. rewrite zlook_app_r by lia. replace (zlen X + zlen qs - zlen H) with 0 by lia. done. }
  cbn [bind]. unfold wrc. rewrite wr_ok; [|split; [lia|]; rewrite zlen_app, (zlen_fmap Some Hx), zlen_app; change (zlen [c]) with 1; pose proof (zlen_nonneg (Some <$> t)); lia]. cbn [bind].
  replace (zset ((Some <$> Hx) ++ [c] ++ (Some <$> t)) (zlen Hx) (Some (zlen x + zlen q))) with (Some <$> (Hx ++ [zlen x + zlen q] ++ t)).
  2: { unfold zset, zlen. rewrite Nat2Z.id. rewrite !fmap_app. rewrite <- (fmap_length Some Hx). set (h := Some <$> Hx). rewrite <- (Nat.add_0_r (length h)), insert_app_r. done. }
  rewrite initialised_ok. cbn [bind].
  rewrite app_assoc. rewrite addFrom_ok by (rewrite ?zlen_app, ?zlen_cons, ?zlen_nil; lia). cbn [bind].
  rewrite Sn, Hsu. change (H' ++ zlen X :: offs (zlen X + zlen qs) (zlen <$> B)) with (H' ++ [zlen X] ++ offs (zlen X + zlen qs) (zlen <$> B)). rewrite app_assoc.
  rewrite addFrom_offs' by (rewrite ?zlen_app, ?zlen_cons, ?zlen_nil, ?zlen_fmap; lia). cbn [bind]. eexists. split; [done|].
  apply (Hm3 (qs ++ [q])).
  - specialize (Hm q). unfold sky2 in *. simpl in *. rewrite EHx. rewrite Htq. rewrite <- !app_assoc in *. simpl in *.
    replace (zlen x + zlen q :: tail (offs (zlen x + zlen q) (zlen <$> Y))) with (offs (zlen x + zlen q) (zlen <$> Y)) by (by destruct Y). exact Hm.
  - simpl. rewrite <- app_assoc. simpl. do 3 f_equal. rewrite zlen_app, zlen_cons, zlen_nil. lia.
Qed.
