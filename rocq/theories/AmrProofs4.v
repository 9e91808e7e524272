From Verif Require Import Base DataArray ArrLib SearchSpec StdProofs StrModel StrSpec StrProofs StrProofs2 StrProofs4 ConnProofs ConnProofs2 ConnProofs5 AmrModel AmrSpec AmrProofs AmrProofs2 AmrProofs3.
From Coq Require Import ZifyBool ZifyNat.

Inductive okp : list Z -> box -> list Z -> Prop :=
| okp_nil : okp [] [] []
| okp_cons n st a b part f facts : 0 <= a -> a <= b -> b <= n -> 0 < f -> okp st part facts -> okp (n :: st) ((a, b) :: part) (f :: facts).
Lemma okp_in st part facts : box_in st part -> zlen facts = zlen st -> Forall (Z.lt 0) facts -> okp st part facts.
Proof.
  intros Hb. revert facts. induction Hb as [|n [a b] st part Hr Hb IH]; intros facts Hl Hf.
  - destruct facts; [constructor|]. rewrite zlen_cons, zlen_nil in Hl. pose proof (zlen_nonneg facts). lia.
  - destruct facts as [|f facts]; [rewrite zlen_cons, zlen_nil in Hl; pose proof (zlen_nonneg st); lia|]. rewrite !zlen_cons in Hl. rewrite Forall_cons in Hf. simpl in Hr. constructor; try tauto. apply IH; [lia|tauto].
Qed.
(** The first child of a cell. *)
Fixpoint low (part : box) (facts cell : list Z) : list Z :=
  match part, facts, cell with (a, _) :: part, f :: facts, c :: cell => (c - a) * f :: low part facts cell | _, _, _ => [] end.
Lemma fine_cons a b part f facts : fine_st ((a, b) :: part) (f :: facts) = (b - a) * f :: fine_st part facts.
Proof. done. Qed.
Lemma tuple_cons g n st c cell : tuple_of g (n :: st) (c :: cell) = c + g + (n + 2 * g) * tuple_of g st cell.
Proof. done. Qed.
Lemma moved_cons g x xs : moved g (x :: xs) = x + g :: moved g xs.
Proof. done. Qed.
Lemma ghosted_cons g n st : ghosted g (n :: st) = n + 2 * g :: ghosted g st.
Proof. done. Qed.
Lemma div_child f x e : 0 < f -> e * f <= x < (e + 1) * f -> x / f = e /\ x mod f = x - e * f.
Proof. intros Hf Hx. assert (x / f = e) as E by (symmetry; apply Z.div_unique with (x - e * f); lia). split; [done|]. rewrite Z.mod_eq by lia. rewrite E. lia. Qed.
Lemma dst_child g st part facts cell x : 0 <= g -> okp st part facts -> in_grid (fine_st part facts) x -> child_of part facts cell x ->
  in_box part cell /\ exists ag, dst g st part facts (moved g x) = Some (tuple_of g st cell, ag) /\ (ag = false <-> x = low part facts cell).
Proof.
  intros Hg H. revert cell x. induction H as [|n st a b part f facts Ha Hab Hb Hf H IH]; intros cell x Hx Hc.
  - destruct cell; [|done]. destruct x; [|done]. split; [constructor|]. exists false. split; [done|]. done.
  - destruct cell as [|c cell]; [done|]. destruct x as [|x xs]; [done|]. cbn [child_of] in Hc. destruct Hc as [Hc Hcs]. rewrite fine_cons in Hx. inversion Hx as [|? ? ? ? Hx1 Hx2]; subst.
    destruct (IH cell xs Hx2 Hcs) as (Hin & ag & Hd & Hag). destruct (div_child f x (c - a) Hf Hc) as [E1 E2].
    split; [constructor; [simpl; nia|done]|]. exists (ag || negb (x mod f =? 0)). split.
    + rewrite moved_cons. cbn [dst]. replace ((x + g <? g) || (g + (b - a) * f <=? x + g)) with false by lia. rewrite Hd. rewrite tuple_cons. replace (x + g - g) with x by lia. rewrite E1. do 2 f_equal. lia.
    + cbn [low]. rewrite E2. destruct Hag as [Hag1 Hag2]. split.
      * intros H'. apply orb_false_iff in H' as [H1 H2]. rewrite Hag1 by done. f_equal. lia.
      * intros H'. injection H' as H1 H2. rewrite Hag2 by done. lia.
Qed.
Lemma dst_inv g st part facts q h ag : 0 <= g -> okp st part facts -> dst g st part facts q = Some (h, ag) ->
  exists x cell, q = moved g x /\ in_grid (fine_st part facts) x /\ child_of part facts cell x.
Proof.
  intros Hg H. revert q h ag. induction H as [|n st a b part f facts Ha Hab Hb Hf H IH]; intros q h ag Hd.
  - destruct q; [|done]. exists [], []. split; [done|]. split; [constructor|done].
  - destruct q as [|t q]; [done|]. cbn [dst] in Hd. destruct ((t <? g) || (g + (b - a) * f <=? t)) eqn:E; [done|]. destruct (dst g st part facts q) as [[h' ag']|] eqn:E'; [|done].
    destruct (IH _ _ _ E') as (x & cell & -> & Hx & Hc). exists (t - g :: x), (a + (t - g) / f :: cell). split; [|split].
    + rewrite !moved_cons. f_equal. lia.
    + rewrite fine_cons. constructor; [lia|done].
    + cbn [child_of]. split; [|done]. pose proof (Z.div_mod (t - g) f). pose proof (Z.mod_pos_bound (t - g) f). nia.
Qed.
Lemma low_child st part facts cell : okp st part facts -> in_box part cell -> in_grid (fine_st part facts) (low part facts cell) /\ child_of part facts cell (low part facts cell).
Proof.
  intros H. revert cell. induction H as [|n st a b part f facts Ha Hab Hb Hf H IH]; intros cell Hc; inversion Hc as [|? c ? cell' Hr Hc']; subst; [split; [constructor|done]|].
  destruct (IH cell' Hc') as [H1 H2]. cbn [low]. rewrite fine_cons. simpl in Hr. split; [constructor; [nia|done]|]. cbn [child_of]. split; [lia|done].
Qed.
Lemma low_le part facts cell x : child_of part facts cell x -> Forall2 Z.le (low part facts cell) x.
Proof.
  revert facts cell x. induction part as [|[a b] part IH]; intros [|f facts] [|c cell] [|x xs] H; try done; try constructor. - cbn [child_of] in H. lia.
  - apply IH. cbn [child_of] in H. tauto.
Qed.
Lemma moved_le g x y : Forall2 Z.le x y -> Forall2 Z.le (moved g x) (moved g y).
Proof. induction 1; [constructor|]. rewrite !moved_cons. constructor; [lia|done]. Qed.
Lemma moved_inj g x y : moved g x = moved g y -> x = y.
Proof. revert y. induction x as [|a x IH]; intros [|b y] H; try done. rewrite !moved_cons in H. injection H as H1 H2. f_equal; [lia|by apply IH]. Qed.
Lemma moved_in g st x : 0 <= g -> in_grid st x -> in_grid (ghosted g st) (moved g x).
Proof. intros Hg. induction 1; [constructor|]. rewrite moved_cons, ghosted_cons. constructor; [lia|done]. Qed.
Lemma okp_box st part facts : okp st part facts -> box_in st part.
Proof. induction 1; constructor; [simpl; lia|done]. Qed.
Lemma cell_in g st part facts cell : 0 <= g -> okp st part facts -> in_box part cell -> in_grid (ghosted g st) (moved g cell).
Proof. intros Hg H Hc. apply moved_in; [done|]. eapply in_box_grid; [by eapply okp_box|done]. Qed.
Lemma tuple_inj g st part facts c1 c2 : 0 <= g -> okp st part facts -> in_box part c1 -> in_box part c2 -> tuple_of g st c1 = tuple_of g st c2 -> c1 = c2.
Proof. intros Hg H H1 H2 He. apply (moved_inj g). eapply grid_id_inj; [by eapply cell_in|by eapply cell_in|done]. Qed.
Lemma fine_nonneg st part facts : okp st part facts -> Forall (Z.le 0) (fine_st part facts).
Proof. induction 1 as [|n st a b part f facts Ha Hab Hb Hf H IH]; [constructor|]. rewrite fine_cons. constructor; [nia|done]. Qed.
Lemma ghosted_nonneg g st : 0 <= g -> Forall (Z.le 0) st -> Forall (Z.le 0) (ghosted g st).
Proof. intros Hg. induction 1; [constructor|]. rewrite ghosted_cons. constructor; [lia|done]. Qed.
Lemma allpos_at ngs i q : Forall (Z.le 0) ngs -> allpos ngs @ i = Some q <-> in_grid ngs q /\ i = grid_id ngs q.
Proof.
  intros Hn. split.
  - intros H. pose proof (zlook_Some_lt _ _ _ H) as Hi. rewrite allpos_len in Hi by done. assert (q ∈ allpos ngs) as Hq by (eapply zlook_elem; done). apply allpos_in in Hq; [|done].
    destruct (grid_id_onto ngs i) as (p & Hp & Hip); [by eapply in_grid_pos|done|]. subst i. pose proof (allpos_look _ _ Hp) as H'. rewrite H' in H. injection H as ->. done.
  - intros [H ->]. by apply allpos_look.
Qed.
Lemma steps_at g st part facts i o : 0 <= g -> okp st part facts ->
  steps g st part facts @ i = Some o <-> exists q, in_grid (ghosted g (fine_st part facts)) q /\ i = grid_id (ghosted g (fine_st part facts)) q /\ o = dst g st part facts q.
Proof.
  intros Hg H. assert (Forall (Z.le 0) (ghosted g (fine_st part facts))) as Hn by (apply ghosted_nonneg; [done|by eapply fine_nonneg]). unfold steps. rewrite zlook_fmap. split.
  - destruct (allpos _ @ i) as [q|] eqn:E; [|done]. intros H'. injection H' as <-. apply allpos_at in E as [E1 E2]; [|done]. by exists q.
  - intros (q & Hq & -> & ->). rewrite allpos_look by done. done.
Qed.
Lemma steps_children g st part facts cell i : 0 <= g -> okp st part facts -> in_box part cell ->
  (exists ag, steps g st part facts @ i = Some (Some (tuple_of g st cell, ag))) <-> children g part facts cell i.
Proof.
  intros Hg H Hc. split.
  - intros [ag Hs]. apply steps_at in Hs as (q & Hq & -> & Hd); [|done..]. symmetry in Hd. destruct (dst_inv _ _ _ _ _ _ _ Hg H Hd) as (x & cell' & -> & Hx & Hch). exists x.
    destruct (dst_child g st part facts cell' x Hg H Hx Hch) as (Hin & ag' & Hd' & _). rewrite Hd in Hd'. injection Hd' as He <-. apply (tuple_inj g st part facts) in He as ->; done.
  - intros (x & Hx & Hch & ->). destruct (dst_child g st part facts cell x Hg H Hx Hch) as (_ & ag & Hd & _). exists ag. apply steps_at; [done..|]. exists (moved g x). split; [by apply moved_in|]. done.
Qed.
Lemma steps_dst g st part facts i d ag : 0 <= g -> okp st part facts -> steps g st part facts @ i = Some (Some (d, ag)) ->
  exists x cell, in_grid (fine_st part facts) x /\ child_of part facts cell x /\ in_box part cell /\ d = tuple_of g st cell /\ i = tuple_of g (fine_st part facts) x /\ (ag = false <-> x = low part facts cell).
Proof.
  intros Hg H Hs. apply steps_at in Hs as (q & Hq & -> & Hd); [|done..]. symmetry in Hd. destruct (dst_inv _ _ _ _ _ _ _ Hg H Hd) as (x & cell & -> & Hx & Hch). exists x, cell.
  destruct (dst_child g st part facts cell x Hg H Hx Hch) as (Hin & ag' & Hd' & Hag). rewrite Hd in Hd'. injection Hd' as -> <-. done.
Qed.
Lemma steps_ordered g st part facts : 0 <= g -> okp st part facts -> ordered (grid_nb (ghosted g st)) (steps g st part facts).
Proof.
  intros Hg H i d ag Hs. destruct (steps_dst _ _ _ _ _ _ _ Hg H Hs) as (x & cell & Hx & Hch & Hin & -> & -> & Hag).
  assert (in_grid (ghosted g (fine_st part facts)) (moved g x)) as Hmx by (by apply moved_in). pose proof (in_grid_pos _ _ Hmx) as Hpos.
  split; [apply grid_id_range; by eapply cell_in|]. split.
  - intros ->. destruct (low_child st part facts cell H Hin) as [Hl1 Hl2]. destruct (dst_child g st part facts cell _ Hg H Hl1 Hl2) as (_ & ag' & Hd' & _).
    exists (tuple_of g (fine_st part facts) (low part facts cell)), ag'. split.
    + assert (tuple_of g (fine_st part facts) (low part facts cell) <= tuple_of g (fine_st part facts) x) as Hle. { apply grid_id_mono; [done|]. apply moved_le. by apply low_le. }
      assert (tuple_of g (fine_st part facts) (low part facts cell) <> tuple_of g (fine_st part facts) x) as Hne; [|lia].
      intros He. apply grid_id_inj in He; [|by apply moved_in|done]. apply moved_inj in He. destruct Hag as [_ Hag]. by discriminate Hag.
    + apply steps_at; [done..|]. exists (moved g (low part facts cell)). split; [by apply moved_in|done].
  - intros (j & ag' & Hj & Hsj). destruct ag; [done|]. destruct (steps_dst _ _ _ _ _ _ _ Hg H Hsj) as (x' & cell' & Hx' & Hch' & Hin' & He & -> & _).
    apply (tuple_inj g st part facts) in He; [|done..]. subst cell'. destruct Hag as [Hag _]. rewrite (Hag eq_refl) in Hj.
    assert (tuple_of g (fine_st part facts) (low part facts cell) <= tuple_of g (fine_st part facts) x'); [|lia]. apply grid_id_mono; [done|]. apply moved_le. by apply low_le.
Qed.
