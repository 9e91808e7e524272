From Verif Require Import Base DataArray ArrLib SearchSpec StdProofs StrModel StrSpec StrProofs StrProofs2 StrProofs4 ConnProofs ConnProofs2 AmrModel AmrSpec.
From Coq Require Import ZifyBool ZifyNat.

(** Copy and addition of one tuple. *)
Lemma cpT_ok {A} nc (inp : list A) src out dst : 0 <= nc -> 0 <= src -> (src + 1) * nc <= zlen inp -> 0 <= dst -> (dst + 1) * nc <= zlen out ->
  exists out', cpT nc inp src out dst = Ok out' /\ zlen out' = zlen out /\
    forall j, out' @ j = if (dst * nc <=? j) && (j <? (dst + 1) * nc) then inp @ (src * nc + (j - dst * nc)) else out @ j.
Proof.
  intros Hnc Hs Hi Hd Ho. apply wp_ok. unfold cpT.
  apply (wp_forZ (fun c o => zlen o = zlen out /\ forall j, o @ j = if (dst * nc <=? j) && (j <? dst * nc + c) then inp @ (src * nc + (j - dst * nc)) else out @ j)); [lia|..].
  - split; [done|]. intros j. destruct ((dst * nc <=? j) && (j <? dst * nc + 0)) eqn:E; [lia|done].
  - intros c o Hc [Hl Ho']. apply wp_bind. apply wp_rd; [nia|]. intros x Hx. apply wp_wr; [nia|].
    split; [by rewrite zlen_zset|]. intros j. rewrite zlook_zset by nia. rewrite Ho'. destruct (decide (j = dst * nc + c)) as [->|Hj].
    + rewrite Z.eqb_refl. replace ((dst * nc <=? dst * nc + c) && (dst * nc + c <? dst * nc + (c + 1))) with true by lia. rewrite <- Hx. f_equal. lia.
    + replace (j =? dst * nc + c) with false by lia. destruct ((dst * nc <=? j) && (j <? dst * nc + c)) eqn:E1, ((dst * nc <=? j) && (j <? dst * nc + (c + 1))) eqn:E2; try lia; done.
  - intros o [Hl Ho']. split; [done|]. intros j. rewrite Ho'. replace (dst * nc + nc) with ((dst + 1) * nc) by lia. done.
Qed.
Lemma addT_ok {A} plus nc (inp : list A) src out dst : 0 <= nc -> 0 <= src -> (src + 1) * nc <= zlen inp -> 0 <= dst -> (dst + 1) * nc <= zlen out ->
  exists out', addT plus nc inp src out dst = Ok out' /\ zlen out' = zlen out /\
    forall j, out' @ j = if (dst * nc <=? j) && (j <? (dst + 1) * nc) then x ← inp @ (src * nc + (j - dst * nc)); y ← out @ j; Some (plus x y) else out @ j.
Proof.
  intros Hnc Hs Hi Hd Ho. apply wp_ok. unfold addT.
  apply (wp_forZ (fun c o => zlen o = zlen out /\ forall j, o @ j = if (dst * nc <=? j) && (j <? dst * nc + c) then x ← inp @ (src * nc + (j - dst * nc)); y ← out @ j; Some (plus x y) else out @ j)); [lia|..].
  - split; [done|]. intros j. destruct ((dst * nc <=? j) && (j <? dst * nc + 0)) eqn:E; [lia|done].
  - intros c o Hc [Hl Ho']. apply wp_bind. apply wp_rd; [nia|]. intros x Hx. apply wp_bind. apply wp_rd; [nia|]. intros y Hy. apply wp_wr; [nia|].
    split; [by rewrite zlen_zset|]. intros j. rewrite zlook_zset by nia. rewrite Ho'. rewrite Ho' in Hy. replace ((dst * nc <=? dst * nc + c) && (dst * nc + c <? dst * nc + c)) with false in Hy by lia.
    destruct (decide (j = dst * nc + c)) as [->|Hj].
    + rewrite Z.eqb_refl. replace ((dst * nc <=? dst * nc + c) && (dst * nc + c <? dst * nc + (c + 1))) with true by lia. replace (src * nc + (dst * nc + c - dst * nc)) with (src * nc + c) by lia. rewrite Hx, Hy. done.
    + replace (j =? dst * nc + c) with false by lia. destruct ((dst * nc <=? j) && (j <? dst * nc + c)) eqn:E1, ((dst * nc <=? j) && (j <? dst * nc + (c + 1))) eqn:E2; try lia; done.
  - intros o [Hl Ho']. split; [done|]. intros j. rewrite Ho'. replace (dst * nc + nc) with ((dst + 1) * nc) by lia. done.
Qed.

(** One axis: [g] cells, [d] times [f] cells, [g] cells. *)
Definition pick {B} (g d f : Z) (pre : list B) (mid : Z -> Z -> list B) (post : list B) (t : Z) : list B :=
  if t <? g then pre else if t <? g + d * f then mid ((t - g) / f) ((t - g) mod f) else post.
Lemma bind_ext_l {A B} (f g : A -> list B) l : (forall x, x ∈ l -> f x = g x) -> l ≫= f = l ≫= g.
Proof. induction l as [|x l IH]; intros H; [done|]. rewrite !bind_cons, IH by (intros; apply H; by right). rewrite H by left. done. Qed.
Lemma seq_mul {B} (mid : Z -> Z -> list B) d f : 0 <= d -> 0 < f -> (seqZ 0 d ≫= fun i => seqZ 0 f ≫= mid i) = seqZ 0 (d * f) ≫= fun t => mid (t / f) (t mod f).
Proof.
  intros Hd Hf. revert d Hd. apply natlike_ind; [done|]. intros d Hd IH. replace (Z.succ d) with (d + 1) by lia. rewrite seqZ_app by lia. rewrite bind_app, IH. replace ((d + 1) * f) with (d * f + f) by lia.
  rewrite seqZ_app by nia. rewrite bind_app. f_equal. rewrite Z.add_0_l. change (seqZ d 1) with [d]. rewrite bind_cons. change ([] ≫= _) with (@nil B). rewrite app_nil_r.
  replace (seqZ (0 + d * f) f) with (Z.add (d * f) <$> seqZ 0 f) by (rewrite fmap_add_seqZ; f_equal; lia).
  assert (forall l, Forall (fun x => 0 <= x < f) l -> l ≫= mid d = (Z.add (d * f) <$> l) ≫= (fun t => mid (t / f) (t mod f))) as H.
  { induction l as [|x l IHl]; intros Hl; [done|]. rewrite Forall_cons in Hl. rewrite fmap_cons, !bind_cons, <- IHl by tauto. f_equal. f_equal.
    - rewrite Z.div_add_l by lia. rewrite Z.div_small by lia. lia.
    - rewrite Z.add_comm, Z.mod_add by lia. rewrite Z.mod_small by lia. done. }
  apply H. apply Forall_forall. intros x Hx. apply elem_of_seqZ in Hx. lia.
Qed.
Lemma axis {B} g d f (pre post : list B) mid : 0 <= g -> 0 <= d -> 0 < f ->
  seqZ 0 (d * f + 2 * g) ≫= pick g d f pre mid post = (seqZ 0 g ≫= fun _ => pre) ++ (seqZ 0 d ≫= fun i => seqZ 0 f ≫= mid i) ++ (seqZ 0 g ≫= fun _ => post).
Proof.
  intros Hg Hd Hf. replace (d * f + 2 * g) with (g + (d * f + g)) by lia. rewrite seqZ_app by nia. rewrite seqZ_app by nia. rewrite !bind_app, Z.add_0_l. f_equal; [|f_equal].
  - apply bind_ext_l. intros x Hx. apply elem_of_seqZ in Hx. unfold pick. replace (x <? g) with true by lia. done.
  - rewrite seq_mul by lia. replace (seqZ g (d * f)) with (Z.add g <$> seqZ 0 (d * f)) by (rewrite fmap_add_seqZ; f_equal; lia).
    assert (forall l, Forall (fun x => 0 <= x < d * f) l -> (Z.add g <$> l) ≫= pick g d f pre mid post = l ≫= (fun t => mid (t / f) (t mod f))) as H.
    { induction l as [|x l IHl]; intros Hl; [done|]. rewrite Forall_cons in Hl. rewrite fmap_cons, !bind_cons, <- IHl by tauto. f_equal. unfold pick. replace (g + x <? g) with false by lia.
      replace (g + x <? g + d * f) with true by lia. replace (g + x - g) with x by lia. done. }
    apply H. apply Forall_forall. intros x Hx. apply elem_of_seqZ in Hx. lia.
  - replace (seqZ (g + d * f) g) with (Z.add (g + d * f) <$> seqZ 0 g) by (rewrite fmap_add_seqZ; f_equal; lia).
    assert (forall l, Forall (fun x => 0 <= x) l -> (Z.add (g + d * f) <$> l) ≫= pick g d f pre mid post = l ≫= (fun t => post)) as H.
    { induction l as [|x l IHl]; intros Hl; [done|]. rewrite Forall_cons in Hl. rewrite fmap_cons, !bind_cons, <- IHl by tauto. f_equal. unfold pick. replace (g + d * f + x <? g) with false by nia.
      replace (g + d * f + x <? g + d * f) with false by lia. done. }
    apply H. apply Forall_forall. intros x Hx. apply elem_of_seqZ in Hx. lia.
Qed.
(** Loops and lists. *)
Lemma foldM_loop {B S} (F : S -> B -> res S) n l s : foldM F (seqZ 0 n ≫= l) s = forZ 0 n (fun i s => foldM F (l i) s) s.
Proof. rewrite foldM_mbind_l. unfold forZ. rewrite Z.sub_0_r. done. Qed.
(** A counter that grows by [dl] at each turn. *)
Lemma forZ_carry {S} n (body : Z -> S * Z -> res (S * Z)) body' p dl s : 0 <= n ->
  (forall i s, 0 <= i < n -> body i (s, p + i * dl) = let* s := body' i s in Ok (s, p + (i + 1) * dl)) ->
  forZ 0 n body (s, p) = let* s := forZ 0 n body' s in Ok (s, p + n * dl).
Proof.
  intros Hn H. assert (forall m, 0 <= m -> m <= n -> forZ 0 m body (s, p) = let* s := forZ 0 m body' s in Ok (s, p + m * dl)) as Hm; [|by apply Hm].
  apply (natlike_ind (fun m => m <= n -> forZ 0 m body (s, p) = let* s := forZ 0 m body' s in Ok (s, p + m * dl))).
  - intros _. rewrite Z.mul_0_l, Z.add_0_r. done.
  - intros m Hm IH Hle. unfold forZ in *. rewrite Z.sub_0_r in *. replace (Z.succ m) with (m + 1) by lia. rewrite seqZ_app by lia. rewrite !foldM_app, Z.add_0_l. rewrite IH by lia.
    change (seqZ m 1) with [m]. destruct (foldM _ (seqZ 0 m) s) as [s'| | |]; cbn [bind]; [|done..]. rewrite !foldM_one. rewrite H by lia. done.
Qed.
