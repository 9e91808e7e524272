(** Proofs: degenerated cells of dimension 2. *)
From Coq Require Import QArith ZifyBool ZifyNat.
From Verif Require Import Base DataArray CellTable CellModel UmModel UmSpec DgModel DgSpec.
Local Open Scope Z_scope.

Section chain.
  Context {E : Type} (s t : E -> Z).
  Fixpoint chain (x : Z) (F : list E) (y : Z) : Prop := match F with [] => x = y | e :: r => s e = x /\ chain (t e) r y end.
  Lemma chain_filter (P : E -> Prop) `{forall e, Decision (P e)} F : (forall e, ~ P e -> s e = t e) -> forall x y, chain x F y -> chain x (filter P F) y.
  Proof using.
    intros HP. induction F as [|e r IH]; intros x y; [done|]. intros [H1 H2]. rewrite filter_cons. destruct (decide (P e)) as [H3|H3].
    - split; [done|]. by apply IH.
    - apply IH. rewrite <- H1, (HP e H3). done.
  Qed.
  Lemma chain_ends F : forall x y, chain x F y -> F <> [] -> t <$> F = drop 1 (s <$> F) ++ [y].
  Proof using.
    induction F as [|e r IH]; intros x y; [done|]. intros [H1 H2] _. destruct r as [|e2 r].
    - simpl in *. by rewrite H2.
    - rewrite !fmap_cons. simpl drop. pose proof (IH _ _ H2 ltac:(done)) as H3. rewrite fmap_cons in H3. rewrite H3. destruct H2 as [H2 _].
      rewrite fmap_cons. simpl. by rewrite H2.
  Qed.
  Lemma chain_ring F x : chain x F x -> ring_edges (s <$> F) = (fun e => (s e, t e)) <$> F.
  Proof using.
    intros H. destruct F as [|e r]; [done|]. unfold ring_edges.
    assert (take 1 (s <$> e :: r) = [x]) as -> by (destruct H as [H _]; simpl; by rewrite H).
    rewrite <- (chain_ends _ _ _ H) by done. clear H. generalize (e :: r). intros l. induction l as [|a l IH]; [done|]. rewrite !fmap_cons. simpl. by rewrite IH.
  Qed.
End chain.

Lemma path_chain l : forall a y, chain fst snd a (zip (a :: l) (l ++ [y])) y.
Proof. induction l as [|b l IH]; intros a y; simpl; [done|]. split; [done|]. apply IH. Qed.
Lemma ring_chain l x : take 1 l = [x] -> chain fst snd x (ring_edges l) x.
Proof. destruct l as [|a l]; [done|]. intros H. simpl in H. injection H as <-. apply path_chain. Qed.
Lemma arc_chain es ms x y : zlen ms = zlen es \/ zlen es <= zlen ms -> chain fst snd x es y -> chain (fun e : Z * Z * Z => e.1.1) (fun e => e.1.2) x (zip es ms) y.
Proof.
  intros H0. assert (length es <= length ms)%nat as H by (unfold zlen in H0; lia). clear H0. revert ms x H. induction es as [|e es IH]; intros ms x H; [done|].
  destruct ms as [|m ms]; [simpl in H; lia|]. simpl. intros [H1 H2]. split; [done|]. apply IH; [simpl in H; lia|done].
Qed.
Lemma ring_len l : zlen (ring_edges l) = zlen l.
Proof. unfold ring_edges, zlen. rewrite zip_with_length, app_length, drop_length, take_length. lia. Qed.
Lemma ring_look l i a b : l @ i = Some a -> l @ ((i + 1) mod zlen l) = Some b -> ring_edges l @ i = Some (a, b).
Proof.
  intros H1 H2. pose proof (zlook_Some_lt _ _ _ H1) as Hi.
  assert ((drop 1 l ++ take 1 l) @ i = Some b) as H3.
  { assert (zlen (drop 1 l) = zlen l - 1) as Hd by (unfold zlen in *; rewrite drop_length; lia).
    destruct (decide (i + 1 = zlen l)) as [H|H].
    - rewrite H, Z_mod_same_full in H2. rewrite zlook_app_r by lia. rewrite zlook_take by lia. by replace (i - _) with 0 by lia.
    - rewrite Z.mod_small in H2 by lia. rewrite zlook_app_l by lia. rewrite zlook_drop by lia. by replace (_ + i) with (i + 1) by lia. }
  revert H1 H3. rewrite !zlook_to_nat by lia. unfold ring_edges. rewrite lookup_zip_with. by intros -> ->.
Qed.
Lemma take_snoc_look {A} (l : list A) i x : l @ i = Some x -> take (Z.to_nat (i + 1)) l = take (Z.to_nat i) l ++ [x].
Proof. intros H. pose proof (zlook_Some_lt _ _ _ H). rewrite zlook_to_nat in H by lia. replace (Z.to_nat (i + 1)) with (S (Z.to_nat i)) by lia. by apply take_S_r. Qed.

Lemma zipLinear_ok l : zipLinear l = Ok (fst <$> filter (fun e => ~ null_edge e) (ring_edges l)).
Proof.
  apply wp_ok_eq. unfold zipLinear. pose proof (zlen_nonneg l).
  apply (wp_forZ (fun i tmp => tmp = fst <$> filter (fun e => ~ null_edge e) (take (Z.to_nat i) (ring_edges l)))); [done|done| |].
  - intros i tmp Hi ->. destruct (zlook_lt l i Hi) as [a Ha]. rewrite (rd_ok _ _ _ Ha). cbn [bind].
    destruct (zlook_lt l ((i + 1) mod zlen l)) as [b Hb]; [apply Z.mod_pos_bound; lia|]. rewrite (rd_ok _ _ _ Hb). cbn [bind wp].
    rewrite (take_snoc_look _ _ _ (ring_look _ _ _ _ Ha Hb)), filter_app, fmap_app. rewrite filter_cons, filter_nil.
    destruct (decide (~ null_edge (a, b))) as [Hn|Hn]; unfold null_edge in Hn; simpl in Hn.
    + by replace (negb (a =? b)) with true by lia.
    + replace (negb (a =? b)) with false by lia. simpl. by rewrite app_nil_r.
  - intros tmp ->. f_equal. f_equal. rewrite take_ge; [done|]. pose proof (ring_len l). unfold zlen in *. lia.
Qed.

Lemma arc_look l i a b m : 0 <= i < zlen l / 2 -> l @ i = Some a -> l @ ((i + 1) mod (zlen l / 2)) = Some b -> l @ (i + zlen l / 2) = Some m -> arc_edges l @ i = Some (a, b, m).
Proof.
  intros Hi H1 H2 H3. unfold arc_edges. set (n := zlen l / 2) in *. pose proof (zlen_nonneg l) as Hl. assert (2 * n <= zlen l) by (unfold n; pose proof (Z.mul_div_le (zlen l) 2); lia).
  assert (zlen (take (Z.to_nat n) l) = n) as Hn by (unfold zlen in *; rewrite take_length; lia).
  pose proof (Z.mod_pos_bound (i + 1) n ltac:(lia)).
  assert (ring_edges (take (Z.to_nat n) l) @ i = Some (a, b)) as H4. { apply ring_look; rewrite ?Hn, zlook_take by lia; done. }
  assert (drop (Z.to_nat n) l @ i = Some m) as H5. { rewrite zlook_drop by lia. rewrite <- H3. f_equal. lia. }
  revert H4 H5. rewrite !zlook_to_nat by lia. rewrite lookup_zip_with. by intros -> ->.
Qed.
Lemma arc_len l : zlen (arc_edges l) = zlen l / 2.
Proof.
  unfold arc_edges. pose proof (zlen_nonneg l) as Hl. pose proof (Z.mul_div_le (zlen l) 2). assert (0 <= zlen l / 2) by (apply Z.div_pos; lia).
  pose proof (ring_len (take (Z.to_nat (zlen l / 2)) l)) as Hr. unfold zlen in *. rewrite zip_with_length, drop_length. rewrite take_length in Hr. lia.
Qed.
Lemma zipQuad_ok l : let F := filter (fun e => ~ null_arc e) (arc_edges l) in zipQuad l = Ok (((fun e => e.1.1) <$> F) ++ (snd <$> F)).
Proof.
  intros F. apply wp_ok_eq. unfold zipQuad. pose proof (zlen_nonneg l). pose proof (Z.mul_div_le (zlen l) 2). assert (0 <= zlen l / 2) by (apply Z.div_pos; lia).
  apply (wp_bind' _ _ (fun r => r = ((fun e : Z * Z * Z => e.1.1) <$> F, snd <$> F))); [|intros r ->; done].
  apply (wp_forZ (fun i r => let G := filter (fun e => ~ null_arc e) (take (Z.to_nat i) (arc_edges l)) in r = ((fun e => e.1.1) <$> G, snd <$> G))); [done|done| |].
  - intros i r Hi ->. cbn beta iota zeta. destruct (zlook_lt l i ltac:(lia)) as [a Ha]. rewrite (rd_ok _ _ _ Ha). cbn [bind].
    pose proof (Z.mod_pos_bound (i + 1) (zlen l / 2) ltac:(lia)).
    destruct (zlook_lt l ((i + 1) mod (zlen l / 2)) ltac:(lia)) as [b Hb]. rewrite (rd_ok _ _ _ Hb). cbn [bind].
    destruct (zlook_lt l (i + zlen l / 2) ltac:(lia)) as [m Hm]. rewrite (rd_ok _ _ _ Hm). cbn [bind].
    rewrite (Z.mod_small (i + zlen l / 2)) by lia. rewrite (rd_ok _ _ _ Hm). cbn [bind].
    rewrite (take_snoc_look _ _ _ (arc_look _ _ _ _ _ Hi Ha Hb Hm)), filter_app, !fmap_app. rewrite filter_cons, filter_nil.
    destruct (decide (~ null_arc (a, b, m))) as [Hn|Hn]; unfold null_arc in Hn; simpl in Hn.
    + replace (negb (a =? b) || negb (a =? m)) with true by lia. done.
    + replace (negb (a =? b) || negb (a =? m)) with false by lia. simpl. by rewrite !app_nil_r.
  - intros r ->. cbn beta iota zeta. rewrite take_ge; [done|]. pose proof (arc_len l). unfold zlen in *. lia.
Qed.

(** The number of different nodes. *)
Lemma filter_all {A} (P : A -> Prop) `{forall x, Decision (P x)} (l : list A) : (forall x, x ∈ l -> P x) -> filter P l = l.
Proof. induction l as [|a l IH]; intros HP; [done|]. rewrite filter_cons, decide_True by (apply HP; set_solver). f_equal. apply IH. set_solver. Qed.
Lemma size_nodup (l : list Z) : (forall n, n ∈ l -> 0 <= n) -> (zlen (filter (fun x => x <> -1) (remove_dups l)) =? zlen l) = bool_decide (NoDup l).
Proof.
  intros Hl. rewrite filter_all by (intros x Hx; rewrite elem_of_remove_dups in Hx; pose proof (Hl x Hx); lia).
  assert (zlen (remove_dups l) <= zlen l /\ (zlen (remove_dups l) = zlen l -> NoDup l) /\ (NoDup l -> remove_dups l = l)) as (H1 & H2 & H3).
  { clear Hl. induction l as [|a l IH]; [repeat split; intros; try done; apply NoDup_nil; done|]. destruct IH as (I1 & I2 & I3). unfold zlen in *. simpl remove_dups. destruct (decide_rel elem_of a l) as [Ha|Ha].
    - simpl length. split; [lia|]. split; [lia|]. intros Hn. by inversion Hn.
    - simpl length. split; [lia|]. split. + intros. apply NoDup_cons_2; [done|]. apply I2. lia. + intros Hn. inversion Hn. f_equal. auto. }
  case_bool_decide as Hn.
  - rewrite H3 by done. lia.
  - apply Z.eqb_neq. auto.
Qed.

Lemma ring_nonull l : NoDup l -> 2 <= zlen l -> filter (fun e => ~ null_edge e) (ring_edges l) = ring_edges l.
Proof.
  intros Hn Hl. apply filter_all. intros [a b] Hx. apply elem_of_zlook in Hx as [i Hi]. pose proof (zlook_Some_lt _ _ _ Hi) as Hi'. rewrite ring_len in Hi'.
  destruct (zlook_lt l i Hi') as [a' Ha]. pose proof (Z.mod_pos_bound (i + 1) (zlen l) ltac:(lia)) as Hm. destruct (zlook_lt l _ Hm) as [b' Hb].
  rewrite (ring_look _ _ _ _ Ha Hb) in Hi. injection Hi as -> ->. unfold null_edge. simpl. intros ->.
  rewrite zlook_to_nat in Ha by lia. rewrite zlook_to_nat in Hb by lia. pose proof (NoDup_lookup _ _ _ _ Hn Ha Hb) as He.
  destruct (decide (i + 1 = zlen l)) as [H|H]; [rewrite H, Z_mod_same_full in He; lia|]. rewrite Z.mod_small in He by lia. lia.
Qed.
Lemma arc_nonull l : NoDup l -> 4 <= zlen l -> filter (fun e => ~ null_arc e) (arc_edges l) = arc_edges l.
Proof.
  intros Hn Hl. apply filter_all. intros [[a b] m] Hx. pose proof (Z.mul_div_le (zlen l) 2). assert (2 <= zlen l / 2) by (apply Z.div_le_lower_bound; lia).
  set (k := take (Z.to_nat (zlen l / 2)) l).
  assert (zlen k = zlen l / 2) as Hk by (unfold k, zlen in *; rewrite take_length; lia).
  assert ((a, b) ∈ ring_edges k) as Hr. { unfold arc_edges in Hx. by apply elem_of_zip_l in Hx. }
  assert (NoDup k) as Hnk. { unfold k. rewrite <- (take_drop (Z.to_nat (zlen l / 2)) l) in Hn. by apply NoDup_app in Hn as [? _]. }
  rewrite <- (ring_nonull k Hnk) in Hr by lia. apply elem_of_list_filter in Hr as [Hr _]. unfold null_arc, null_edge in *. simpl in *. tauto.
Qed.

Lemma simplify_plane q c : plane_cell q c -> exists c', simplifyDegeneratedCell c.1 c.2 = Ok c' /\ tidy q c c' /\ zlen c'.2 <= zlen c.2 /\ exists k', GetCellModel c'.1 = Ok k' /\ cm_quad k' = q.
Proof.
  destruct c as [ty l]. intros (k & Hk & Hd & Hq & Hp & Hlen). simpl in *. unfold simplifyDegeneratedCell. rewrite Hk. cbn [bind]. rewrite Hd, Hq, size_nodup by done.
  change (2 =? 3) with false. change (2 =? 2) with true. cbn [andb orb]. case_bool_decide as Hn.
  - exists (ty, l). split; [done|]. split; [|split; [simpl; lia|]; eauto]. unfold tidy. simpl. split; [|split; [done|tauto]].
    destruct q; [by rewrite arc_nonull|by rewrite ring_nonull].
  - destruct q; cbn [negb].
    + set (F := filter (fun e => ~ null_arc e) (arc_edges l)). rewrite zipQuad_ok. fold F. cbn [bind]. eexists. split; [done|].
      set (l' := ((fun e => e.1.1) <$> F) ++ (snd <$> F)). assert (zlen l' = 2 * zlen F) as Hl' by (unfold l', zlen; rewrite app_length, !fmap_length; lia).
      assert (zlen F <= zlen l / 2) as HF. { rewrite <- arc_len. unfold F, zlen. pose proof (filter_length (fun e => ~ null_arc e) (arc_edges l)). lia. }
      pose proof (Z.mul_div_le (zlen l) 2). simpl. split; [|split; [lia|]].
      2:{ destruct (zlen l' =? 6); [eexists; split; [unfold GetCellModel; reflexivity|done]|]. destruct (zlen l' =? 8); (eexists; split; [unfold GetCellModel; reflexivity|done]). }
      unfold tidy. simpl. split; [|split; [tauto|]]. 2:{ intros _. split; [done|]. intros _. exists (zlen F). lia. }
      unfold arc_edges at 1. fold F. rewrite Hl'. replace (2 * zlen F / 2) with (zlen F) by (rewrite Z.mul_comm, Z.div_mul; lia).
      replace (Z.to_nat (zlen F)) with (length ((fun e : Z * Z * Z => e.1.1) <$> F)) by (rewrite fmap_length; unfold zlen; lia).
      unfold l'. rewrite take_app, drop_app. set (n := Z.to_nat (zlen l / 2)).
      destruct (take 1 (take n l)) as [|x [|]] eqn:Hx.
      * exfalso. assert (2 <= zlen l / 2) by (apply Z.div_le_lower_bound; lia). assert (length (take 1 (take n l)) = 1)%nat as H2 by (unfold n, zlen in *; rewrite !take_length; lia). rewrite Hx in H2. done.
      * assert (chain (fun e : Z * Z * Z => e.1.1) (fun e => e.1.2) x F x) as Hc.
        { unfold F. apply chain_filter. { intros e He. unfold null_arc in He. destruct e as [[a b] m]. simpl in *. lia. }
          unfold arc_edges. fold n. apply arc_chain; [|by apply ring_chain].
          right. rewrite ring_len. unfold n, zlen in *. rewrite take_length, drop_length. lia. }
        rewrite (chain_ring _ _ F x Hc). clear. induction F as [|[[a b] m] F IH]; [done|]. rewrite !fmap_cons. simpl. by rewrite IH.
      * exfalso. assert (length (take 1 (take n l)) <= 1)%nat as H2 by (rewrite take_length; lia). rewrite Hx in H2. simpl in H2. lia.
    + rewrite zipLinear_ok. set (F := filter (fun e => ~ null_edge e) (ring_edges l)). cbn [bind]. eexists. split; [done|]. simpl.
      assert (zlen (fst <$> F) <= zlen l) as HF. { rewrite <- (ring_len l). unfold F, zlen. rewrite fmap_length. pose proof (filter_length (fun e => ~ null_edge e) (ring_edges l)). lia. }
      split; [|split; [done|]].
      2:{ destruct (zlen (fst <$> F) =? 3); [eexists; split; [unfold GetCellModel; reflexivity|done]|]. destruct (zlen (fst <$> F) =? 4); (eexists; split; [unfold GetCellModel; reflexivity|done]). }
      unfold tidy. simpl. split; [|split; [tauto|]]. 2:{ intros _. split; [done|done]. }
      fold F. destruct (take 1 l) as [|x [|]] eqn:Hx.
      * exfalso. assert (length (take 1 l) = 1)%nat as H2 by (unfold zlen in *; rewrite !take_length; lia). rewrite Hx in H2. done.
      * assert (chain fst snd x F x) as Hc. { unfold F. apply chain_filter; [|by apply ring_chain]. intros e He. unfold null_edge in He. lia. }
        rewrite (chain_ring _ _ F x Hc). clear. induction F as [|[a b] F IH]; [done|]. rewrite !fmap_cons. simpl. by rewrite IH.
      * exfalso. assert (length (take 1 l) <= 1)%nat as H2 by (rewrite take_length; lia). rewrite Hx in H2. simpl in H2. lia.
Qed.
