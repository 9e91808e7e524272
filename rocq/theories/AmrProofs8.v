From Verif Require Import Base DataArray ArrLib SearchSpec StdProofs StrModel StrSpec StrProofs StrProofs2 StrProofs4 ConnProofs ConnProofs2 ConnProofs5 AmrModel AmrSpec AmrProofs AmrProofs2 AmrProofs3 AmrProofs4 AmrProofs5 AmrProofs6 AmrProofs7.
From Coq Require Import ZifyBool ZifyNat.

(** The children of a cell form a box. *)
Fixpoint cbox (g : Z) (part : box) (facts cell : list Z) : box :=
  match part, facts, cell with (a, _) :: part, f :: facts, c :: cell => ((c - a) * f + g, (c - a + 1) * f + g) :: cbox g part facts cell | _, _, _ => [] end.
Lemma cbox_in g st part facts cell : 0 <= g -> okp st part facts -> in_box part cell -> box_in (ghosted g (fine_st part facts)) (cbox g part facts cell) /\ grid_nb (box_dims (cbox g part facts cell)) = grid_nb facts.
Proof.
  intros Hg H. revert cell. induction H as [|n st a b part f facts Ha Hab Hb Hf H IH]; intros cell Hc; inversion Hc as [|? c ? cell' Hr Hc']; subst; [split; [constructor|done]|].
  destruct (IH cell' Hc') as [H1 H2]. rewrite fine_cons, ghosted_cons. cbn [cbox]. simpl in Hr. split; [constructor; [simpl; nia|done]|]. unfold box_dims in *. rewrite fmap_cons. cbn [grid_nb fst snd]. rewrite H2. f_equal. lia.
Qed.
Lemma cbox_children g st part facts cell : 0 <= g -> okp st part facts -> in_box part cell -> forall i, cells_of (ghosted g (fine_st part facts)) (cbox g part facts cell) i <-> children g part facts cell i.
Proof.
  intros Hg H Hc i. unfold cells_of, children, tuple_of.
  assert (forall q, in_box (cbox g part facts cell) q <-> exists x, in_grid (fine_st part facts) x /\ child_of part facts cell x /\ q = moved g x) as Hq.
  { clear i. revert cell Hc. induction H as [|n st a b part f facts Ha Hab Hb Hf H IH]; intros cell Hc q; inversion Hc as [|? c ? cell' Hr Hc']; subst.
    - split; [intros Hq; inversion Hq; subst; exists []; repeat split; constructor|]. intros (x & Hx & _ & ->). inversion Hx; subst. constructor.
    - cbn [cbox]. simpl in Hr. rewrite fine_cons. split.
      + intros Hq. inversion Hq as [|? t ? q' Ht Hq']; subst. simpl in Ht. apply (IH cell' Hc') in Hq' as (x & H1 & H2 & ->). exists (t - g :: x). rewrite moved_cons. split; [constructor; [nia|done]|]. split; [split; [lia|done]|]. f_equal. lia.
      + intros (x & H1 & H2 & ->). inversion H1 as [|? y ? x' Hy H1']; subst. destruct H2 as [H2 H3]. rewrite moved_cons. constructor; [simpl; lia|]. apply (IH cell' Hc'). by exists x'. }
  split.
  - intros (q & H1 & ->). apply Hq in H1 as (x & H1 & H2 & ->). by exists x.
  - intros (x & H1 & H2 & ->). exists (moved g x). split; [apply Hq; by exists x|done].
Qed.
Definition chs g part facts cell : list Z := box_ids (ghosted g (fine_st part facts)) (cbox g part facts cell).
Lemma chs_enum g st part facts cell : 0 <= g -> okp st part facts -> in_box part cell -> enumerates (children g part facts cell) (chs g part facts cell).
Proof.
  intros Hg H Hc. destruct (cbox_in g st part facts cell Hg H Hc) as [H1 _]. destruct (box_ids_enum _ _ H1) as [H2 H3]. split; [done|]. intros x. unfold chs. rewrite H3. by eapply cbox_children.
Qed.
Lemma box_in_valid st part : box_in st part -> Forall (fun r => fst r <= snd r) part.
Proof. induction 1; constructor; [lia|done]. Qed.
Lemma chs_len g st part facts cell : 0 <= g -> okp st part facts -> in_box part cell -> zlen (chs g part facts cell) = grid_nb facts.
Proof.
  intros Hg H Hc. destruct (cbox_in g st part facts cell Hg H Hc) as [H1 H2]. unfold chs. rewrite box_ids_len; [done|by apply box_in_len|by eapply box_in_valid].
Qed.
Lemma omap_all {A B} (f : A -> option B) l v : (forall x, x ∈ l -> f x = Some v) -> omap f l = replicate (length l) v.
Proof.
  induction l as [|x l IH]; intros H; [done|]. cbn. rewrite (H x) by left. f_equal. apply IH. intros y Hy. apply H. by right.
Qed.
Lemma child_source part facts cell x : in_grid (fine_st part facts) x -> child_of part facts cell x -> source_of part facts cell x.
Proof.
  revert facts cell x. induction part as [|[a b] part IH]; intros [|f facts] [|c cell] [|x xs] Hx Hc; try done. rewrite fine_cons in Hx. inversion Hx; subst. destruct Hc as [Hc1 Hc2]. split; [right; right; lia|]. by apply IH.
Qed.
Lemma child_in_box g st part facts cell x : 0 <= g -> okp st part facts -> in_grid (fine_st part facts) x -> child_of part facts cell x -> in_box part cell.
Proof. intros Hg H H1 H2. by destruct (dst_child g st part facts cell x Hg H H1 H2). Qed.
(** Spreading then condensing. *)
Lemma spread_condense {A} plus g st part facts (fine coarse fine' r : da A) : 0 <= g -> fits g st part facts fine coarse -> spread g st part facts fine coarse fine' -> condensed plus g st part facts fine' coarse r ->
  forall cell c v, in_box part cell -> ij coarse (tuple_of g st cell) c = Some v -> ij r (tuple_of g st cell) c = sum_up plus (replicate (Z.to_nat (grid_nb facts)) v).
Proof.
  intros Hg Hf (_ & _ & Hs1 & Hs2 & Hs) (_ & _ & Hr1 & Hr2 & Hr & _) cell c v Hc Hv. pose proof (fits_okp _ _ _ _ _ _ Hf) as Hk.
  assert (0 <= c < da_nc coarse) as Hcc by (unfold ij in Hv; destruct (_ && _ && _) eqn:E; [lia|done]).
  destruct (Hr cell c Hc Hcc) as (ch & He & _ & ->). f_equal. pose proof (enumerates_ext _ _ _ He (chs_enum g st part facts cell Hg Hk Hc)) as Ee. subst ch. rewrite (omap_all _ _ v).
  - f_equal. rewrite <- (chs_len g st part facts cell Hg Hk Hc). unfold zlen. lia.
  - intros i Hi. apply (proj2 He) in Hi as (x & Hx & Hch & ->). rewrite (Hs x cell c); [done|by apply moved_in|by apply child_source].
Qed.
Lemma fold_same n v s : foldl (fun acc y => y + acc) s (replicate n v) = s + Z.of_nat n * v.
Proof. revert s. induction n as [|n IH]; intros s; [cbn; lia|]. cbn [replicate foldl]. rewrite IH. lia. Qed.
Lemma sum_same n v : 0 < n -> sum_up Z.add (replicate (Z.to_nat n) v) = Some (n * v).
Proof.
  intros Hn. replace (Z.to_nat n) with (S (Z.to_nat (n - 1))) by lia. cbn [replicate sum_up]. rewrite fold_same. f_equal. rewrite Z2Nat.id by lia. lia.
Qed.
Lemma facts_pos st part facts : okp st part facts -> 0 < grid_nb facts.
Proof. intros H. apply grid_nb_pos. induction H; constructor; [lia|done]. Qed.
(** Conservation. *)
Lemma total_cons d c x l : total d c (x :: l) = default 0 (ij d x c) + total d c l.
Proof. done. Qed.
Lemma total_app d c l1 l2 : total d c (l1 ++ l2) = total d c l1 + total d c l2.
Proof. induction l1 as [|x l1 IH]; [done|]. rewrite <- app_comm_cons, !total_cons, IH. lia. Qed.
Lemma total_perm d c l1 l2 : l1 ≡ₚ l2 -> total d c l1 = total d c l2.
Proof. induction 1 as [|x l1 l2 _ IH|x y l|l1 l2 l3 _ IH1 _ IH2]; [done| |rewrite !total_cons; lia|lia]. rewrite !total_cons. lia. Qed.
Lemma fold_total d c ch s : foldl (fun acc y => y + acc) s (omap (fun i => ij d i c) ch) = s + total d c ch.
Proof.
  revert s. induction ch as [|x ch IH]; intros s; [cbn; lia|]. rewrite total_cons. cbn [omap list_omap]. destruct (ij d x c) as [v|]; cbn [foldl default]; unfold omap in IH; rewrite IH; unfold id; lia.
Qed.
Lemma sum_total d c ch : (forall i, i ∈ ch -> is_Some (ij d i c)) -> ch <> [] -> sum_up Z.add (omap (fun i => ij d i c) ch) = Some (total d c ch).
Proof.
  destruct ch as [|x ch]; intros H Hne; [done|]. destruct (H x) as [v Hv]; [left|]. rewrite total_cons. cbn [omap list_omap]. rewrite Hv. cbn [sum_up]. f_equal. exact (fold_total d c ch v).
Qed.
Definition cells part : list (list Z) := filter (fun p => bool_decide (Forall2 (fun r x => fst r <= x < snd r) part p)) (allpos (snd <$> part)).
Lemma cells_in st part facts cell : okp st part facts -> cell ∈ cells part <-> in_box part cell.
Proof.
  intros H. unfold cells. rewrite elem_of_list_filter. rewrite allpos_in.
  - rewrite bool_decide_spec. split; [by intros [? _]|]. intros Hc. split; [done|]. clear -H Hc. revert cell Hc. induction H as [|n st a b part f facts Ha Hab Hb Hf H IH]; intros cell Hc; inversion Hc; subst; [constructor|]. rewrite fmap_cons. constructor; [simpl in *; lia|]. by apply IH.
  - clear cell. induction H; [constructor|]. rewrite fmap_cons. constructor; [simpl; lia|done].
Qed.
Lemma NoDup_bind {A B} (f : A -> list B) l : (forall x1 x2 y, x1 ∈ l -> x2 ∈ l -> y ∈ f x1 -> y ∈ f x2 -> x1 = x2) -> (forall x, x ∈ l -> NoDup (f x)) -> NoDup l -> NoDup (l ≫= f).
Proof.
  intros H1 H2 H. induction H as [|x l Hx Hl IH]; [constructor|]. rewrite bind_cons. apply NoDup_app. split; [apply H2; left|]. split.
  - intros y Hy Hb. apply elem_of_list_bind in Hb as (z & Hz & Hzl). assert (x = z) as -> by (eapply H1; [left|by right|done|done]). done.
  - apply IH; [|intros z Hz; apply H2; by right]. intros a b y Ha Hb. apply H1; by right.
Qed.
Lemma cells_nodup part : NoDup (cells part).
Proof.
  apply NoDup_filter. generalize (snd <$> part). intros l. induction l as [|n l IH]; [repeat constructor; set_solver|]. cbn [allpos]. apply NoDup_bind; [| |done].
  - intros h1 h2 y _ _ H1 H2. apply elem_of_list_fmap in H1 as (p1 & -> & _). apply elem_of_list_fmap in H2 as (p2 & He & _). by injection He.
  - intros h _. apply NoDup_fmap; [intros a b He; by injection He|apply NoDup_seqZ].
Qed.
Lemma child_unique part facts st c1 c2 x : okp st part facts -> child_of part facts c1 x -> child_of part facts c2 x -> c1 = c2.
Proof.
  intros H. revert c1 c2 x. induction H as [|n st a b part f facts Ha Hab Hb Hf H IH]; intros [|c1 l1] [|c2 l2] [|x xs] H1 H2; try done. destruct H1 as [H1 H1'], H2 as [H2 H2']. f_equal; [|by eapply IH].
  destruct (div_child f x (c1 - a) Hf) as [E1 _]; [lia|]. destruct (div_child f x (c2 - a) Hf) as [E2 _]; lia.
Qed.
Lemma child_exists st part facts x : okp st part facts -> in_grid (fine_st part facts) x -> exists cell, child_of part facts cell x.
Proof.
  intros H. revert x. induction H as [|n st a b part f facts Ha Hab Hb Hf H IH]; intros x Hx.
  - inversion Hx; subst. by exists [].
  - rewrite fine_cons in Hx. inversion Hx as [|? y ? xs Hy Hx']; subst. destruct (IH xs Hx') as (cell & Hc). exists (a + y / f :: cell). split; [|done]. pose proof (Z.div_mod y f). pose proof (Z.mod_pos_bound y f). nia.
Qed.
Lemma enum_nodup P l : enumerates P l -> NoDup l.
Proof. intros [H _]. by apply SS_NoDup, increasing_SS. Qed.
Lemma total_bind d c r (t : list Z -> Z) (f : list Z -> list Z) L : (forall p, p ∈ L -> ij r (t p) c = Some (total d c (f p))) -> total r c (t <$> L) = total d c (L ≫= f).
Proof.
  induction L as [|p L IH]; intros H; [done|]. rewrite fmap_cons, bind_cons, total_app. rewrite <- IH by (intros q Hq; apply H; by right). rewrite total_cons, (H p) by left. done.
Qed.
Lemma conserved g st part facts (fine coarse r : da Z) : 0 <= g -> fits g st part facts fine coarse -> condensed Z.add g st part facts fine coarse r ->
  forall c cs xs, 0 <= c < da_nc coarse -> enumerates (covered g st part) cs -> enumerates (patch g part facts) xs -> total r c cs = total fine c xs.
Proof.
  intros Hg Hf (_ & _ & _ & _ & Hr & _) c cs xs Hc Hcs Hxs. pose proof (fits_okp _ _ _ _ _ _ Hf) as Hk.
  assert (cs ≡ₚ tuple_of g st <$> cells part) as Hp1.
  { apply NoDup_Permutation; [by eapply enum_nodup| |].
    - apply NoDup_fmap_2_strong; [|apply cells_nodup]. intros p q H1 H2 He. eapply tuple_inj; [done|done|by eapply cells_in|by eapply cells_in|done].
    - intros i. rewrite (proj2 Hcs i), elem_of_list_fmap. unfold covered. split; intros (p & H1 & H2); exists p; (split; [|]); try done; by eapply cells_in. }
  assert (xs ≡ₚ cells part ≫= chs g part facts) as Hp2.
  { apply NoDup_Permutation; [by eapply enum_nodup| |].
    - apply NoDup_bind; [| |apply cells_nodup].
      + intros p q i H1 H2 H3 H4. eapply cells_in in H1; [|done]. eapply cells_in in H2; [|done]. apply (proj2 (chs_enum g st part facts p Hg Hk H1)) in H3 as (x & G1 & G2 & ->). apply (proj2 (chs_enum g st part facts q Hg Hk H2)) in H4 as (y & G3 & G4 & He).
        assert (x = y) as ->. { apply (moved_inj g). eapply grid_id_inj; [by apply moved_in|by apply moved_in|done]. } by eapply child_unique.
      + intros p Hp. eapply enum_nodup. eapply chs_enum; [done|done|]. by eapply cells_in.
    - intros i. rewrite (proj2 Hxs i), elem_of_list_bind. unfold patch. split.
      + intros (x & H1 & ->). destruct (child_exists st part facts x Hk H1) as (cell & H2). pose proof (child_in_box g st part facts cell x Hg Hk H1 H2) as H3. exists cell. split; [|by eapply cells_in]. apply (proj2 (chs_enum g st part facts cell Hg Hk H3)). by exists x.
      + intros (cell & H1 & H2). eapply cells_in in H2; [|done]. apply (proj2 (chs_enum g st part facts cell Hg Hk H2)) in H1 as (x & H3 & _ & ->). by exists x. }
  rewrite (total_perm _ _ _ _ Hp1), (total_perm _ _ _ _ Hp2). apply total_bind. intros p Hp. eapply cells_in in Hp; [|done]. destruct (Hr p c Hp Hc) as (ch & He & Hs & ->).
  pose proof (enumerates_ext _ _ _ He (chs_enum g st part facts p Hg Hk Hp)) as Ee. subst ch. apply sum_total; [done|]. intros E. pose proof (chs_len g st part facts p Hg Hk Hp) as Hl. rewrite E, zlen_nil in Hl. pose proof (facts_pos _ _ _ Hk). lia.
Qed.
