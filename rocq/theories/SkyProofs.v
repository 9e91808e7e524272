From Verif Require Import Base DataArray ArrLib IndexSpec FillLib StdModel SlicesModel RenumModel IndexModel LayoutModel SkyModel SkySpec.
From Coq Require Import ZifyBool ZifyNat.

(** * Offsets. *)
Fixpoint heads (o : Z) (l : list Z) : list Z := match l with [] => [] | n :: l => o :: heads (o + n) l end.
Lemma zsum_cons x l : zsum (x :: l) = x + zsum l.
Proof. done. Qed.
Lemma heads_len o l : zlen (heads o l) = zlen l.
Proof. revert o. induction l as [|n l IH]; intros o; [done|]. simpl. by rewrite !zlen_cons, IH. Qed.
Lemma offs_len o l : zlen (offs o l) = zlen l + 1.
Proof. revert o. induction l as [|n l IH]; intros o; [done|]. simpl. rewrite !zlen_cons, IH. lia. Qed.
Lemma offs_app o a b : offs o (a ++ b) = heads o a ++ offs (o + zsum a) b.
Proof.
  revert o. induction a as [|n a IH]; intros o; [by rewrite Z.add_0_r|]. cbn [app offs heads]. rewrite IH, zsum_cons. by rewrite Z.add_assoc.
Qed.
Lemma offs_shift d o l : (fun x => x + d) <$> offs o l = offs (o + d) l.
Proof.
  revert o. induction l as [|n l IH]; intros o; [done|]. cbn [offs]. rewrite fmap_cons, IH. do 2 f_equal. lia.
Qed.
Lemma offs_hd o l : offs o l @ 0 = Some o.
Proof. by destruct l. Qed.
Lemma offs_cons o n l : offs o (n :: l) = o :: offs (o + n) l.
Proof. done. Qed.

Lemma laid_mid {A} (a m b : list (list A)) vals idx : laid (a ++ m ++ b) vals idx ->
  exists x y H, vals = x ++ concat m ++ y /\ zlen H = zlen a /\ idx = H ++ offs (zlen x) (zlen <$> (m ++ b)) /\
    (forall c, c = zlen <$> a -> zlen x = zlen x - zsum c + zsum c) /\
    forall m', laid (a ++ m' ++ b) (x ++ concat m' ++ y) (H ++ offs (zlen x) (zlen <$> (m' ++ b))).
Proof.
  intros (pre & post & -> & ->). exists (pre ++ concat a), (concat b ++ post), (heads (zlen pre) (zlen <$> a)).
  split; [rewrite !concat_app; by rewrite <- !app_assoc|]. split; [by rewrite heads_len, zlen_fmap|].
  split; [rewrite (fmap_app zlen a), offs_app, zlen_app, zlen_concat; done|]. split; [intros; lia|].
  intros m'. exists pre, post. split; [rewrite !concat_app; by rewrite <- !app_assoc|].
  rewrite (fmap_app zlen a), offs_app, zlen_app, zlen_concat. done.
Qed.

(** * Blocks. *)
Lemma initialised_ok {A} (l : list A) : initialised (Some <$> l) = Ok l.
Proof.
  unfold initialised. replace (forallb _ _) with true.
  - f_equal. induction l as [|x l IH]; [done|]. change (omap id (Some <$> (x :: l))) with (x :: omap id (Some <$> l)). by rewrite IH.
  - induction l as [|x l IH]; [done|]. simpl. exact IH.
Qed.
Lemma take_z {A} (x y : list A) n : n = zlen x -> take (Z.to_nat n) (x ++ y) = x.
Proof. intros ->. unfold zlen. rewrite Nat2Z.id. by rewrite take_app. Qed.
Lemma drop_z {A} (x y : list A) n : n = zlen x -> drop (Z.to_nat n) (x ++ y) = y.
Proof. intros ->. unfold zlen. rewrite Nat2Z.id. by rewrite drop_app. Qed.
Lemma drop_zz {A} (x y : list A) n k : n = zlen x + k -> 0 <= k -> drop (Z.to_nat n) (x ++ y) = drop (Z.to_nat k) y.
Proof. intros -> Hk. unfold zlen. rewrite Z2Nat.inj_add, Nat2Z.id by lia. by rewrite drop_add_app. Qed.
Lemma take_zz {A} (x y : list A) n k : n = zlen x + k -> 0 <= k -> take (Z.to_nat n) (x ++ y) = x ++ take (Z.to_nat k) y.
Proof. intros -> Hk. unfold zlen. rewrite Z2Nat.inj_add, Nat2Z.id by lia. by rewrite take_add_app. Qed.
Lemma take_all_z {A} (l : list A) n : zlen l <= n -> take (Z.to_nat n) l = l.
Proof. intros H. apply take_ge. unfold zlen in H. lia. Qed.
Lemma drop_all_z {A} (l : list A) n : zlen l <= n -> drop (Z.to_nat n) l = [].
Proof. intros H. apply drop_ge. unfold zlen in H. lia. Qed.
Lemma malloc_neg {A} n : n <= 0 -> malloc A n = [].
Proof. intros H. unfold malloc. by rewrite Z2Nat.nonpos. Qed.
Lemma zlen_malloc' {A} n : 0 <= n -> zlen (malloc A n) = n.
Proof. intros H. unfold malloc, zlen. rewrite replicate_length. lia. Qed.

Lemma move_ok {A} (l : list A) a b d : 0 <= a -> a <= b -> b <= zlen l -> 0 <= d -> d + (b - a) <= zlen l ->
  moveIn false l a b d = Ok (take (Z.to_nat d) l ++ sub l a b ++ drop (Z.to_nat (d + (b - a))) l).
Proof.
  intros. unfold moveIn, sub. replace ((a <? 0) || (b <? a) || (zlen l <? b) || (d <? 0) || (zlen l <? d + (b - a))) with false by lia. done.
Qed.
Lemma sub_mid {A} (x m y : list A) a b : a = zlen x -> b = zlen x + zlen m -> sub (x ++ m ++ y) a b = m.
Proof. intros -> ->. unfold sub. rewrite drop_z by done. rewrite take_z by lia. done. Qed.
Lemma save_mid {A} (x m y : list A) a b : a = zlen x -> b = zlen x + zlen m -> saveBlock (x ++ m ++ y) a b = Ok m.
Proof.
  intros -> ->. unfold saveBlock. pose proof (zlen_nonneg x). pose proof (zlen_nonneg m). pose proof (zlen_nonneg y). rewrite !zlen_app.
  replace ((_ <? 0) || _ || _) with false by lia. cbn [ubif]. f_equal. apply (sub_mid x m y); done.
Qed.
Lemma reAlloc_ok {A} (x y : list A) n : n = zlen x -> reAlloc (x ++ y) n = Ok x.
Proof.
  intros ->. pose proof (zlen_nonneg x). pose proof (zlen_nonneg y). unfold reAlloc, reAllocC. replace (zlen x <? 0) with false by lia. cbn [ubif bind].
  rewrite fmap_app. rewrite take_z by (by rewrite zlen_fmap). rewrite malloc_neg by (rewrite zlen_app, !zlen_fmap; lia). rewrite app_nil_r. apply initialised_ok.
Qed.
(** Removing the block [p]: move and shrink. *)
Lemma del_block {A} (x p y : list A) a b d n : a = zlen x + zlen p -> b = zlen x + zlen p + zlen y -> d = zlen x -> n = zlen x + zlen y ->
  exists r, moveIn false (x ++ p ++ y) a b d = Ok ((x ++ y) ++ r) /\ zlen r = zlen p /\ reAlloc ((x ++ y) ++ r) n = Ok (x ++ y).
Proof.
  intros -> -> -> ->. pose proof (zlen_nonneg x). pose proof (zlen_nonneg p). pose proof (zlen_nonneg y).
  exists (drop (Z.to_nat (zlen y)) (p ++ y)). split; [|split].
  - rewrite move_ok by (rewrite ?zlen_app; lia). f_equal. rewrite take_z by done.
    replace (sub _ _ _) with y.
    + rewrite <- app_assoc. do 2 f_equal. apply drop_zz; lia.
    + symmetry. rewrite app_assoc. rewrite <- (app_nil_r y) at 1. apply sub_mid; rewrite ?zlen_app; lia.
  - rewrite zlen_drop, zlen_app. lia.
  - apply reAlloc_ok. by rewrite zlen_app.
Qed.
Lemma restore_mid {A} (x p q y : list A) d : d = zlen x -> zlen p = zlen q -> restoreBlock (x ++ p ++ y) d q = Ok (x ++ q ++ y).
Proof.
  intros -> Hl. pose proof (zlen_nonneg x). pose proof (zlen_nonneg y). pose proof (zlen_nonneg q). unfold restoreBlock. rewrite !zlen_app, Hl.
  replace ((_ <? 0) || _) with false by lia. cbn [ubif]. rewrite take_z by done. f_equal. do 2 f_equal. rewrite app_assoc. apply drop_z. rewrite zlen_app. lia.
Qed.
(** Making room for [k] cells. *)
Lemma ins_block {A} (x y : list A) k n : 0 <= k -> n = zlen x + zlen y -> exists v g,
  reAllocC (Some <$> (x ++ y)) (n + k) = Ok v /\ zlen v = n + k /\
  moveIn false v (zlen x) n (zlen x + k) = Ok ((Some <$> x) ++ g ++ (Some <$> y)) /\ zlen g = k.
Proof.
  intros Hk ->. pose proof (zlen_nonneg x). pose proof (zlen_nonneg y).
  set (v := (Some <$> (x ++ y)) ++ malloc A k).
  assert (zlen v = zlen x + zlen y + k) as Hlv by (unfold v; rewrite zlen_app, zlen_fmap, zlen_app, zlen_malloc' by lia; lia).
  exists v, (take (Z.to_nat k) ((Some <$> y) ++ malloc A k)). split; [|split; [done|split]].
  - unfold reAllocC. replace (_ <? 0) with false by lia. cbn [ubif]. f_equal. unfold v.
    rewrite take_all_z by (rewrite zlen_fmap, zlen_app; lia). f_equal. f_equal. rewrite zlen_fmap, zlen_app. lia.
  - rewrite move_ok by lia. f_equal. rewrite (drop_all_z v) by lia. rewrite app_nil_r.
    unfold v. rewrite fmap_app, <- !app_assoc. rewrite (take_zz (Some <$> x) _ _ k) by (rewrite ?zlen_fmap; lia).
    rewrite <- !app_assoc. do 2 f_equal. apply sub_mid; rewrite !zlen_fmap; lia.
  - rewrite zlen_take, zlen_app, zlen_fmap, zlen_malloc' by lia. lia.
Qed.
Lemma addFrom_mid (x y z : list Z) a b d : a = zlen x -> b = zlen x + zlen y -> addFrom (x ++ y ++ z) a b d = Ok (x ++ ((fun v => v + d) <$> y) ++ z).
Proof.
  intros -> ->. revert x. induction y as [|v y IH]; intros x.
  - unfold addFrom. rewrite forZ_empty by (rewrite zlen_nil; lia). done.
  - unfold addFrom in *. pose proof (zlen_nonneg y). pose proof (zlen_nonneg x). pose proof (zlen_nonneg z). rewrite forZ_step by (rewrite zlen_cons; lia).
    rewrite (rd_ok _ _ v) by (by rewrite zlook_app_r, Z.sub_diag by lia). cbn [bind].
    rewrite wr_ok by (rewrite !zlen_app, zlen_cons; lia). cbn [bind].
    replace (zset (x ++ (v :: y) ++ z) (zlen x) (v + d)) with ((x ++ [v + d]) ++ y ++ z).
    + specialize (IH (x ++ [v + d])). assert (zlen (x ++ [v + d]) = zlen x + 1) as Hl by (rewrite zlen_app, zlen_cons, zlen_nil; lia).
      rewrite Hl in IH. replace (zlen x + zlen (v :: y)) with (zlen x + 1 + zlen y) by (rewrite zlen_cons; lia). rewrite IH.
      f_equal. rewrite <- app_assoc. done.
    + unfold zset, zlen. rewrite Nat2Z.id. rewrite <- app_assoc. simpl. rewrite <- (Nat.add_0_r (length x)), insert_app_r. done.
Qed.
Lemma addFrom_ok (x y : list Z) a b d : a = zlen x -> b = zlen x + zlen y -> addFrom (x ++ y) a b d = Ok (x ++ ((fun v => v + d) <$> y)).
Proof. intros Ha Hb. pose proof (addFrom_mid x y [] a b d Ha Hb) as H. by rewrite !app_nil_r in H. Qed.
Lemma addFrom_offs (H : list Z) o l z a b d : a = zlen H -> b = zlen H + zlen l + 1 -> addFrom (H ++ offs o l ++ z) a b d = Ok (H ++ offs (o + d) l ++ z).
Proof. intros -> ->. rewrite addFrom_mid; [by rewrite offs_shift|done|rewrite offs_len; lia]. Qed.
Lemma addFrom_offs' (H : list Z) o l a b d : a = zlen H -> b = zlen H + zlen l + 1 -> addFrom (H ++ offs o l) a b d = Ok (H ++ offs (o + d) l).
Proof. intros -> ->. rewrite addFrom_ok; [by rewrite offs_shift|done|rewrite offs_len; lia]. Qed.
