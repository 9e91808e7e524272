From Verif Require Import Base ArrLib SearchSpec StdProofs StrModel StrSpec StrProofs StrProofs2 ConnProofs2 BlkModel BlkSpec.
From Coq Require Import ZifyBool ZifyNat.

(** Row-major numbers. *)
Lemma row_app d1 d2 p1 p2 : length d1 = length p1 -> row_id (d1 ++ d2) (p1 ++ p2) = row_id d1 p1 * grid_nb d2 + row_id d2 p2.
Proof.
  revert p1. induction d1 as [|n d1 IH]; intros [|p p1] H; try done. cbn in H. rewrite <- !app_comm_cons. cbn [row_id]. rewrite IH by lia. rewrite grid_nb_app. lia.
Qed.
Lemma row_range dims pos : in_grid dims pos -> 0 <= row_id dims pos < grid_nb dims.
Proof. induction 1 as [|n p dims pos Hp _ IH]; [cbn; lia|]. cbn [row_id grid_nb]. nia. Qed.
Lemma row_inj dims p q : in_grid dims p -> in_grid dims q -> row_id dims p = row_id dims q -> p = q.
Proof.
  intros H. revert q. induction H as [|n x dims p Hx Hp IH]; intros q Hq He; inversion Hq as [|? y ? q' Hy Hq']; subst; [done|]. cbn [row_id] in He.
  pose proof (row_range _ _ Hp). pose proof (row_range _ _ Hq'). assert (x = y) as -> by nia. f_equal. apply IH; [done|]. lia.
Qed.
Lemma row_onto dims i : Forall (Z.le 0) dims -> 0 <= i < grid_nb dims -> exists pos, in_grid dims pos /\ i = row_id dims pos.
Proof.
  intros H. revert i. induction H as [|n dims Hn Hd IH]; intros i Hi; cbn [grid_nb] in Hi.
  - exists []. split; [constructor|]. cbn. lia.
  - pose proof (grid_nb_nonneg _ Hd). assert (0 < grid_nb dims) by nia. destruct (IH (i mod grid_nb dims)) as (pos & H1 & H2); [apply Z.mod_pos_bound; lia|].
    pose proof (Z.div_mod i (grid_nb dims)). pose proof (Z.mod_pos_bound i (grid_nb dims)). exists (i / grid_nb dims :: pos). split; [constructor; [nia|done]|]. cbn [row_id]. lia.
Qed.
Lemma row_step n dims p pos : in_grid (n :: dims) (p :: pos) -> 0 < grid_nb dims /\ Z.quot (row_id (n :: dims) (p :: pos)) (grid_nb dims) = p /\ Z.rem (row_id (n :: dims) (p :: pos)) (grid_nb dims) = row_id dims pos.
Proof.
  intros H. inversion H as [|? ? ? ? Hp Hr]; subst. pose proof (row_range _ _ Hr). cbn [row_id]. assert (0 < grid_nb dims) by lia. split; [done|].
  rewrite Z.quot_div_nonneg, Z.rem_mod_nonneg by nia. split.
  - symmetry. apply Z.div_unique with (row_id dims pos); lia.
  - symmetry. apply Z.mod_unique with p; lia.
Qed.
Lemma quot_head n dims : 0 < n -> 0 <= grid_nb dims -> Z.quot (grid_nb (n :: dims)) n = grid_nb dims.
Proof. intros. cbn [grid_nb]. rewrite Z.mul_comm, Z.quot_mul by lia. done. Qed.

(** The cuts. *)
Lemma cuts_look a i : cuts a -> 0 <= i < zlen a -> exists x, a @ i = Some x /\ 0 <= x <= axis_len a.
Proof.
  intros (H1 & H2 & H3) Hi. destruct (zlook_lt a i Hi) as [x Hx]. exists x. split; [done|]. destruct (zlook_lt a (zlen a - 1)) as [y Hy]; [lia|]. unfold axis_len. rewrite Hy. cbn. split.
  - destruct (decide (i = 0)) as [->|]; [rewrite H2 in Hx; injection Hx as <-; lia|]. apply (H3 0 i 0 x); [lia|done|done].
  - destruct (decide (i = zlen a - 1)) as [->|]; [rewrite Hy in Hx; injection Hx as <-; lia|]. apply (H3 i (zlen a - 1) x y); [lia|done|done].
Qed.
Lemma cuts_last a : cuts a -> a @ (zlen a - 1) = Some (axis_len a).
Proof. intros (H1 & _ & _). destruct (zlook_lt a (zlen a - 1)) as [y Hy]; [lia|]. unfold axis_len. by rewrite Hy. Qed.
Lemma cuts_nonneg a : cuts a -> 0 <= axis_len a.
Proof. intros H. destruct (cuts_look a 0 H) as (x & _ & Hx); [destruct H; lia|]. lia. Qed.
Lemma lens_nonneg idx : Forall cuts idx -> Forall (Z.le 0) (axis_len <$> idx).
Proof. induction 1; [constructor|]. rewrite fmap_cons. constructor; [by apply cuts_nonneg|done]. Qed.
Lemma blocks_pos idx : Forall cuts idx -> Forall (Z.lt 0) (blocks <$> idx).
Proof. induction 1 as [|a idx Ha _ IH]; [constructor|]. rewrite fmap_cons. constructor; [destruct Ha; unfold blocks; lia|done]. Qed.
Lemma block_mono a b b' lo hi lo' hi' x : cuts a -> a @ b = Some lo -> a @ (b + 1) = Some hi -> a @ b' = Some lo' -> a @ (b' + 1) = Some hi' -> lo <= x < hi -> lo' <= x < hi' -> b = b'.
Proof.
  intros (_ & _ & H) H1 H2 H3 H4 Hx Hx'. destruct (Z.lt_trichotomy b b') as [Hl|[?|Hl]]; [|done|]; exfalso.
  - destruct (decide (b + 1 = b')) as [<-|]; [rewrite H2 in H3; injection H3; lia|]. pose proof (H (b + 1) b' hi lo' ltac:(lia) H2 H3). lia.
  - destruct (decide (b' + 1 = b)) as [<-|]; [rewrite H4 in H1; injection H1; lia|]. pose proof (H (b' + 1) b hi' lo ltac:(lia) H4 H1). lia.
Qed.
Lemma findBlock_ok a x inc sub : cuts a -> 0 <= x < axis_len a -> exists b lo hi, findBlock a x inc sub = Ok (b + 1, sub + b * inc) /\ a @ b = Some lo /\ a @ (b + 1) = Some hi /\ lo <= x < hi.
Proof.
  intros Hc Hx. pose proof (cuts_last a Hc) as Hlast. pose proof Hc as (H1 & H2 & H3).
  assert (exists s, findBlock a x inc sub = Ok s /\ exists b lo hi, s = (b + 1, sub + b * inc) /\ a @ b = Some lo /\ a @ (b + 1) = Some hi /\ lo <= x < hi) as (s & E & b & lo & hi & -> & H); [|by exists b, lo, hi].
  apply wp_ok. unfold findBlock.
  apply (wp_whileM (fun s => exists b lo, s = (b + 1, sub + b * inc) /\ 0 <= b < zlen a - 1 /\ a @ b = Some lo /\ lo <= x) (fun s => Z.to_nat (zlen a - fst s))).
  - exists 0, 0. split; [f_equal; lia|]. split; [lia|]. split; [done|lia].
  - simpl. unfold zlen. lia.
  - intros s (b & lo & -> & Hb & Hlo & Hle). destruct (zlook_lt a (b + 1)) as [hi Hhi]; [lia|]. rewrite (rd_ok _ _ _ Hhi). cbn [bind wp]. destruct (hi <=? x) eqn:E.
    + cbn [wp]. split; [|simpl; lia]. exists (b + 1), hi. split; [f_equal; lia|]. split; [|split; [done|lia]]. split; [lia|]. destruct (decide (b + 1 = zlen a - 1)) as [He|]; [|lia]. rewrite He, Hlast in Hhi. injection Hhi as <-. lia.
    + exists b, lo, hi. split; [done|]. split; [done|]. split; [done|]. lia.
Qed.
(** The boxes. *)
Lemma bb_cons a idx b bs r bx : block_box (a :: idx) (b :: bs) (r :: bx) <-> (a @ b = Some (fst r) /\ a @ (b + 1) = Some (snd r)) /\ block_box idx bs bx.
Proof. split; [intros H; inversion H; subst; done|]. intros [H1 H2]. by constructor. Qed.
Lemma bb_grid idx bs bx : block_box idx bs bx -> in_grid (blocks <$> idx) bs.
Proof.
  induction 1 as [|a b r idx bs bx [H1 H2] _ IH]; [constructor|]. rewrite fmap_cons. constructor; [|done]. apply zlook_Some_lt in H1. apply zlook_Some_lt in H2. unfold blocks. lia.
Qed.
Lemma bb_box idx bs bx : Forall cuts idx -> block_box idx bs bx -> box_in (axis_len <$> idx) bx.
Proof.
  intros Hc H. induction H as [|a b [lo hi] idx bs bx [H1 H2] _ IH]; [constructor|]. inversion Hc as [|? ? Hc1 Hc2]; subst. rewrite fmap_cons. constructor; [|by apply IH]. simpl in *.
  destruct (cuts_look a b Hc1) as (x & Hx & Hx'); [by eapply zlook_Some_lt|]. destruct (cuts_look a (b + 1) Hc1) as (y & Hy & Hy'); [by eapply zlook_Some_lt|]. destruct Hc1 as (_ & _ & H3). pose proof (H3 b (b + 1) lo hi ltac:(lia) H1 H2). rewrite H1 in Hx. rewrite H2 in Hy. injection Hx as ->. injection Hy as ->. lia.
Qed.
Lemma bb_exists idx bs : in_grid (blocks <$> idx) bs -> exists bx, block_box idx bs bx.
Proof.
  revert bs. induction idx as [|a idx IH]; intros bs H; [inversion H; subst; exists []; constructor|]. rewrite fmap_cons in H. inversion H as [|? b ? bs' Hb Hbs]; subst. destruct (IH bs' Hbs) as (bx & Hbx). unfold blocks in Hb.
  destruct (zlook_lt a b) as [lo Hlo]; [lia|]. destruct (zlook_lt a (b + 1)) as [hi Hhi]; [lia|]. exists ((lo, hi) :: bx). by apply bb_cons.
Qed.
Lemma bb_fun idx bs bx bx' : block_box idx bs bx -> block_box idx bs bx' -> bx = bx'.
Proof.
  intros H. revert bx'. induction H as [|a b [lo hi] idx bs bx [H1 H2] _ IH]; intros bx' H'; inversion H' as [|? ? [lo' hi'] ? ? bx1 [H3 H4] H5]; subst; [done|]. simpl in *. f_equal; [|by apply IH]. congruence.
Qed.
Lemma bb_unique idx bs bx bs' bx' pos : Forall cuts idx -> block_box idx bs bx -> block_box idx bs' bx' -> in_box bx pos -> in_box bx' pos -> bs = bs'.
Proof.
  intros Hc H. revert bs' bx' pos. induction H as [|a b [lo hi] idx bs bx [H1 H2] _ IH]; intros bs' bx' pos H' Hp Hp'; inversion H' as [|? b' [lo' hi'] ? bs1 bx1 [H3 H4] H5]; subst; [done|].
  inversion Hp as [|? x ? ps Hx Hps]; subst. inversion Hp' as [|? ? ? ? Hx' Hps']; subst. inversion Hc as [|? ? Hc1 Hc2]; subst. simpl in *. f_equal; [by eapply (block_mono a b b')|]. by eapply IH.
Qed.
Definition offs (pos : list Z) (bx : box) : list Z := zip_with (fun x r => x - fst r) pos bx.
Lemma offs_in bx pos : in_box bx pos -> in_grid (box_dims bx) (offs pos bx).
Proof. induction 1 as [|[lo hi] x bx pos Hx _ IH]; [constructor|]. unfold box_dims. rewrite fmap_cons. constructor; [simpl in *; lia|done]. Qed.
Lemma offs_inj bx p q : in_box bx p -> in_box bx q -> offs p bx = offs q bx -> p = q.
Proof.
  intros H. revert q. induction H as [|[lo hi] x bx p Hx _ IH]; intros q Hq He; inversion Hq; subst; [done|]. cbn in He. injection He as He1 He2. f_equal; [lia|by apply IH].
Qed.
Lemma offs_onto bx q : in_grid (box_dims bx) q -> exists pos, in_box bx pos /\ q = offs pos bx.
Proof.
  revert q. induction bx as [|[lo hi] bx IH]; intros q H; [inversion H; subst; exists []; split; [constructor|done]|]. unfold box_dims in H. rewrite fmap_cons in H. inversion H as [|? y ? q' Hy Hq]; subst. destruct (IH q' Hq) as (pos & H1 & ->). simpl in Hy.
  exists (y + lo :: pos). split; [constructor; [simpl; lia|done]|]. cbn. f_equal. lia.
Qed.
Lemma in_box_pos bx pos : in_box bx pos -> Forall (Z.lt 0) (box_dims bx).
Proof. induction 1; [constructor|]. unfold box_dims. rewrite fmap_cons. constructor; [simpl in *; lia|done]. Qed.
