From Verif Require Import Base DataArray ArrLib FillLib RenumProofs IndexSpec IndexProofs IndexProofs2 IndexProofs4 IndexProofs5 LayoutProofs2 SearchSpec StdProofs SkyModel SkyProofs SkyProofs8 StrModel StrSpec StrProofs StrProofs2 StrProofs3 StrProofs4.
From Coq Require Import ZifyBool ZifyNat.

Lemma forZ_ext {S} lo hi (f g : Z -> S -> res S) s : (forall i s, f i s = g i s) -> forZ lo hi f s = forZ lo hi g s.
Proof. intros H. unfold forZ. apply foldM_ext. intros. apply H. Qed.
Lemma tmp2_ok st : 1 <= zlen st -> exists t, (let* t := wr (replicate (length st) 0) 0 1 in
    forZ 1 (zlen st) (fun i t => let* a := rd t (i - 1) in let* b := rd st (i - 1) in wr t i (a * b)) t) = Ok t /\ is_split st t.
Proof.
  intros H. apply wp_ok. rewrite wr_ok by (rewrite zlen_replicate; unfold zlen in H; lia). cbn [bind].
  apply (wp_forZ (fun i t => zlen t = zlen st /\ forall j, 0 <= j < i -> t @ j = Some (grid_nb (take (Z.to_nat j) st)))).
  - done.
  - split; [rewrite zlen_zset, zlen_replicate; unfold zlen; lia|]. intros j Hj. assert (j = 0) as -> by lia. rewrite zlook_zset by (rewrite zlen_replicate; unfold zlen in H; lia). done.
  - intros i t Hi (Hl & Ht). rewrite (rd_ok _ _ _ (Ht (i - 1) ltac:(lia))). cbn [bind]. destruct (zlook_lt st (i - 1)) as [n Hn]; [lia|]. rewrite (rd_ok _ _ _ Hn). cbn [bind]. rewrite wr_ok by lia. cbn [wp]. split; [by rewrite zlen_zset|].
    intros j Hj. rewrite zlook_zset by lia. destruct (j =? i) eqn:E; [|apply Ht; lia]. assert (j = i - 1 + 1) as -> by lia. rewrite (take_snoc_z _ _ _ Hn), grid_nb_app. cbn [grid_nb]. do 2 f_equal. lia.
  - intros t (Hl & Ht). split; done.
Qed.
Lemma cmp_loop {S} st tmp2 part dims (body : Z -> S -> res S) s : dim_ok st -> is_split st tmp2 -> zlen st = zlen part -> dims = box_dims part ->
  (match tmp2, part, dims with
    | [_; s1; s2], [(p0, _); (p1, _); (p2, _)], [d0; d1; d2] =>
      forZ 0 d2 (fun i s => let a := s2 * (p2 + i) in
        forZ 0 d1 (fun j s => let b := s1 * (p1 + j) in
          forZ 0 d0 (fun k s => body (p0 + k + b + a) s) s) s) s
    | [_; s1], [(p0, _); (p1, _)], [d0; d1] =>
      forZ 0 d1 (fun j s => let b := s1 * (p1 + j) in
        forZ 0 d0 (fun k s => body (p0 + k + b) s) s) s
    | [_], [(p0, _)], [d0] => forZ 0 d0 (fun k s => body (p0 + k) s) s
    | _, _, _ => Throw
    end) = foldM (fun s c => body c s) (box_ids st part) s.
Proof.
  intros Hd [Hs1 Hs] Hl ->. rewrite <- forBox_ids by done. unfold zlen in Hl.
  destruct (wp_length3 st Hd) as [(a & ->)|[(a & b & ->)|(a & b & c & ->)]].
  - destruct tmp2 as [|x [|y tmp2]]; unfold zlen in Hs1; simpl in Hs1; try lia. destruct part as [|[q0 r0] [|]]; simpl in Hl; try lia. done.
  - destruct tmp2 as [|x [|y [|z tmp2]]]; unfold zlen in Hs1; simpl in Hs1; try lia. destruct part as [|[q0 r0] [|[q1 r1] [|]]]; simpl in Hl; try lia.
    pose proof (Hs 1 ltac:(done)) as E1. change (Some y = Some (a * 1)) in E1. assert (y = a * 1) as -> by congruence. unfold box_dims. cbn [forBox fmap list_fmap].
    apply forZ_ext. intros i s0. apply forZ_ext. intros j s2. f_equal. lia.
  - destruct tmp2 as [|x [|y [|z [|w tmp2]]]]; unfold zlen in Hs1; simpl in Hs1; try lia. destruct part as [|[q0 r0] [|[q1 r1] [|[q2 r2] [|]]]]; simpl in Hl; try lia.
    pose proof (Hs 1 ltac:(done)) as E1. change (Some y = Some (a * 1)) in E1. assert (y = a * 1) as -> by congruence. pose proof (Hs 2 ltac:(done)) as E2. change (Some z = Some (a * (b * 1))) in E2. assert (z = a * (b * 1)) as -> by congruence.
    unfold box_dims. cbn [forBox fmap list_fmap]. apply forZ_ext. intros i s0. apply forZ_ext. intros j s2. apply forZ_ext. intros k s3. f_equal. lia.
Qed.
Lemma cmp_ok ids l w : 0 <= w -> w + zlen l <= zlen ids ->
  exists w', foldM (fun s c => (fun '(w, ok) => if ok : bool then let* x := rd ids w in Ok (w + 1, c =? x) else Ok (w, ok)) s) l (w, true) = Ok (w', bool_decide (sub ids w (w + zlen l) = l)).
Proof.
  revert w. induction l as [|c l IH]; intros w Hw Hl.
  - exists w. cbn [foldM]. rewrite zlen_nil, Z.add_0_r, sub_empty by lia. done.
  - rewrite zlen_cons in Hl. pose proof (zlen_nonneg l). destruct (zlook_lt ids w) as [x Hx]; [lia|]. cbn [foldM]. rewrite (rd_ok _ _ _ Hx). cbn [bind].
    assert (sub ids w (w + zlen (c :: l)) = x :: sub ids (w + 1) (w + 1 + zlen l)) as Hsub.
    { rewrite zlen_cons. unfold sub. rewrite (take_drop_cons _ _ _ Hx). replace (Z.to_nat (w + (1 + zlen l) - w)) with (S (Z.to_nat (w + 1 + zlen l - (w + 1)))) by lia. done. }
    destruct (c =? x) eqn:E.
    + assert (c = x) as -> by lia. destruct (IH (w + 1) ltac:(lia) ltac:(lia)) as [w' ->]. exists w'. do 2 f_equal. apply bool_decide_ext. rewrite Hsub. split; [intros ->; done|]. intros H'. congruence.
    + exists (w + 1). rewrite bool_decide_eq_false_2. 2:{ rewrite Hsub. intros H'. injection H'. lia. }
      clear. induction l as [|y l IH]; [done|]. cbn [foldM]. exact IH.
Qed.

(** ** IsPartStructured *)
Definition is_box (st : list Z) (ids : list Z) (part : box) : Prop := box_in st part /\ nonempty_box part /\ ids = box_ids st part.
Lemma is_box_unique st ids part f l tf tl : Forall (Z.lt 0) st -> is_box st ids part -> ids @ 0 = Some f -> ids @ (zlen ids - 1) = Some l ->
  in_grid st tf -> grid_id st tf = f -> in_grid st tl -> grid_id st tl = l -> part = zip_with (fun f l => (f, l + 1)) tf tl.
Proof.
  intros Hp (Hb & Hn & He) Hf Hl Htf Ef Htl El. rewrite He in Hf, Hl. apply box_ids_first in Hf; try done. apply box_ids_last in Hl; try done.
  assert (tf = fst <$> part) as ->. { apply (grid_id_inj st); try done; [|congruence]. eapply in_box_grid; [done|]. by apply box_lo_in. }
  assert (tl = (fun r => snd r - 1) <$> part) as ->. { apply (grid_id_inj st); try done; [|congruence]. eapply in_box_grid; [done|]. by apply box_hi_in. }
  clear. induction part as [|[a b] part IH]; [done|]. rewrite !fmap_cons. cbn [zip_with fst snd]. rewrite <- IH. do 2 f_equal. lia.
Qed.
Lemma in_grid_lastaxis init n m pos t : in_grid (init ++ [m]) pos -> pos @ zlen init = Some t -> 0 <= t /\ (in_grid (init ++ [n]) pos <-> t < n).
Proof.
  intros H Ht. apply Forall2_app_inv_l in H as (p1 & p2 & H1 & H2 & ->). inversion H2 as [|? x ? p3 Hx H3]; subst. inversion H3; subst. pose proof (Forall2_length _ _ _ H1) as HL.
  rewrite zlook_app_r in Ht by (unfold zlen; lia). replace (zlen init - zlen p1) with 0 in Ht by (unfold zlen; lia). change (Some x = Some t) in Ht. injection Ht as ->. split; [lia|]. split.
  - intros H. apply Forall2_app_inv_l in H as (q1 & q2 & G1 & G2 & E). pose proof (Forall2_length _ _ _ G1). apply app_inj_1 in E as [<- <-]; [|lia]. inversion G2; subst. lia.
  - intros H. apply Forall2_app; [done|]. constructor; [lia|constructor].
Qed.
Lemma in_grid_id st init n pos m : st = init ++ [n] -> Forall (Z.lt 0) st -> in_grid (init ++ [m]) pos -> 0 <= grid_id st pos -> grid_id st pos < grid_nb st -> in_grid st pos.
Proof.
  intros -> Hp Hg H0 Hlt. pose proof (Forall2_length _ _ _ Hg) as HL. rewrite app_length in HL. simpl in HL. destruct (zlook_lt pos (zlen init)) as [t Ht]; [unfold zlen; lia|].
  destruct (in_grid_lastaxis init n m pos t Hg Ht) as [Ht0 Hiff]. apply Hiff. destruct (Z.lt_ge_cases t n); [done|]. exfalso.
  apply Forall2_app_inv_l in Hg as (p1 & p2 & H1 & H2 & ->). inversion H2 as [|? x ? p3 Hx H3]; subst. inversion H3; subst. pose proof (Forall2_length _ _ _ H1) as HL'.
  rewrite zlook_app_r in Ht by (unfold zlen; lia). replace (zlen init - zlen p1) with 0 in Ht by (unfold zlen; lia). change (Some x = Some t) in Ht. injection Ht as ->.
  apply Forall_app in Hp as [Hp _]. pose proof (grid_nb_pos _ Hp). rewrite grid_nb_app in Hlt. cbn [grid_nb] in Hlt.
  assert (grid_id (init ++ [n]) (p1 ++ [t]) = grid_id init p1 + grid_nb init * t) as E.
  { clear - HL'. revert p1 HL'. induction init as [|y init IH]; intros p1 HL'; destruct p1 as [|q p1]; try done; [cbn; lia|]. cbn [app grid_id grid_nb]. rewrite IH by (simpl in HL'; lia). ring. }
  pose proof (grid_id_range _ _ H1). nia.
Qed.
Lemma axes_ok st tf tl : zlen tf = zlen st -> zlen tl = zlen st -> Forall (Z.le 0) tl ->
  wp (forZ 0 (zlen st) (fun i '(part, tmp4, szExp, ok) =>
    if ok : bool then
      let* l := rd tl i in let* n := rd st i in
      throw_if (l <? 0) || (n <=? l) >>>
      let* f := rd tf i in
      let d := l + 1 - f in
      Ok (part ++ [(f, l + 1)], tmp4 ++ [d], szExp * d, negb (d <=? 0))
    else Ok (part, tmp4, szExp, ok)) ([] : box, [], 1, true))
   (fun '(part, tmp4, szExp, ok) => if ok : bool then part = zip_with (fun f l => (f, l + 1)) tf tl /\ tmp4 = box_dims part /\ szExp = grid_nb tmp4 /\ nonempty_box part /\ in_grid st tl
      else exists j f l, tf @ j = Some f /\ tl @ j = Some l /\ l < f)
   (~ in_grid st tl).
Proof.
  intros Hf Hl Hpos. set (full := zip_with (fun f l => (f, l + 1)) tf tl).
  apply (wp_forZ (fun i '(part, tmp4, szExp, ok) => if ok : bool then part = take (Z.to_nat i) full /\ tmp4 = box_dims part /\ szExp = grid_nb tmp4 /\ nonempty_box part /\ in_grid (take (Z.to_nat i) st) (take (Z.to_nat i) tl)
      else exists j f l, tf @ j = Some f /\ tl @ j = Some l /\ l < f)).
  - apply zlen_nonneg.
  - rewrite !take_0. repeat split; try done; constructor.
  - intros i [[[part tmp4] szExp] ok] Hi. destruct ok; [|intros H; exact H]. intros (-> & -> & -> & Hne & Hg).
    destruct (zlook_lt tl i) as [l El]; [lia|]. destruct (zlook_lt tf i) as [f Ef]; [lia|]. destruct (zlook_lt st i) as [n En]; [lia|].
    rewrite (rd_ok _ _ _ El). cbn [bind]. rewrite (rd_ok _ _ _ En). cbn [bind]. assert (0 <= l) as Hl0. { rewrite Forall_forall in Hpos. apply Hpos. eapply zlook_elem; done. }
    destruct ((l <? 0) || (n <=? l)) eqn:E.
    + cbn [ifthrow wp]. intros H. pose proof H as H'. assert (l < n); [|lia]. rewrite zlook_to_nat in El, En by lia. pose proof (Forall2_lookup_lr _ _ _ _ _ _ H En El) as Hx. simpl in Hx. lia.
    + cbn [ifthrow]. rewrite (rd_ok _ _ _ Ef). cbn [bind wp]. destruct (negb (l + 1 - f <=? 0)) eqn:E2.
      * assert (full @ i = Some (f, l + 1)) as Efull. { pose proof Ef as Ef'. pose proof El as El'. rewrite zlook_to_nat in Ef', El' by lia. rewrite zlook_to_nat by lia. unfold full. rewrite lookup_zip_with, Ef', El'. done. }
        rewrite (take_snoc_z _ _ _ Efull), (take_snoc_z _ _ _ En), (take_snoc_z _ _ _ El). split; [done|]. unfold box_dims. rewrite fmap_app. split; [done|]. rewrite grid_nb_app. cbn [fmap list_fmap grid_nb fst snd]. split; [lia|]. split.
        -- apply Forall_app. split; [done|]. constructor; [simpl; lia|constructor].
        -- apply Forall2_app; [done|]. constructor; [lia|constructor].
      * exists i, f, l. repeat split; try done. lia.
  - intros [[[part tmp4] szExp] ok]. destruct ok; [|intros H; exact H]. intros (-> & -> & -> & Hne & Hg).
    assert (take (Z.to_nat (zlen st)) full = full) as ->. { apply take_ge. unfold full. rewrite zip_with_length. unfold zlen in *. lia. }
    rewrite !take_ge in Hg by (unfold zlen in *; lia). rewrite take_ge in Hne by (unfold full; rewrite zip_with_length; unfold zlen in *; lia). repeat split; done.
Qed.
Lemma isPart_wp ids st : dim_ok st -> Forall (Z.lt 0) st -> ids <> [] -> Forall (Z.le 0) ids ->
  wp (IsPartStructured ids st) (fun o => match o with Some part => forall part', is_box st ids part' <-> part' = part | None => ~ exists part', is_box st ids part' end) (exists id, id ∈ ids /\ grid_nb st <= id).
Proof.
  intros Hd Hp Hne Hids. unfold IsPartStructured. replace ((zlen st <? 1) || (3 <? zlen st)) with false by (unfold dim_ok in Hd; lia). cbn [ifthrow].
  destruct (tmp2_ok st ltac:(unfold dim_ok in Hd; lia)) as (tmp2 & Ht2 & Hs). rewrite Ht2. cbn [bind]. clear Ht2.
  assert (0 < zlen ids) as Hsz by (destruct ids; [done|]; rewrite zlen_cons; pose proof (zlen_nonneg ids); lia).
  replace (zlen ids =? 0) with false by lia. cbn [ifthrow]. destruct (zlook_lt ids 0) as [f Hf]; [lia|]. rewrite (rd_ok _ _ _ Hf). cbn [bind].
  destruct (zlook_lt ids (zlen ids - 1)) as [l Hl]; [lia|].
  assert (0 <= f) as Hf0 by (rewrite Forall_forall in Hids; apply Hids; eapply zlook_elem; done). assert (0 <= l) as Hl0 by (rewrite Forall_forall in Hids; apply Hids; eapply zlook_elem; done).
  assert (exists init n, st = init ++ [n]) as (init & n & Est). { destruct st as [|n init _] using rev_ind; [unfold dim_ok in Hd; rewrite zlen_nil in Hd; lia|eauto]. }
  assert (Forall (Z.lt 0) init) as Hpi by (rewrite Est in Hp; by apply Forall_app in Hp as [? _]).
  assert (zlen st = zlen init + 1) as Hlen by (rewrite Est, zlen_app; done). pose proof (zlen_nonneg init) as Hinit0.
  destruct (getpos_any init n tmp2 f (replicate (length st) 0)) as (tf & mf & Htf & Hgf & Ef); try (rewrite <- ?Est; done); [rewrite <- Est; rewrite zlen_replicate; unfold zlen; lia|]. rewrite <- Est in Htf, Ef. rewrite Htf. cbn [bind].
  destruct (getpos_any init n tmp2 l (replicate (length st) 0)) as (tl & ml & Htl & Hgl & El); try (rewrite <- ?Est; done); [rewrite <- Est; rewrite zlen_replicate; unfold zlen; lia|]. rewrite <- Est in Htl, El.
  assert (zlen tf = zlen st) as Hlf by (apply Forall2_length in Hgf; rewrite app_length in Hgf; simpl in Hgf; unfold zlen in *; lia).
  assert (zlen tl = zlen st) as Hll by (apply Forall2_length in Hgl; rewrite app_length in Hgl; simpl in Hgl; unfold zlen in *; lia).
  destruct (zlook_lt tf (zlen st - 1)) as [t Ht]; [lia|]. rewrite (rd_ok _ _ _ Ht). cbn [bind]. assert (st @ (zlen st - 1) = Some n) as Hn. { rewrite Hlen, Est. replace (zlen init + 1 - 1) with (zlen init) by lia. rewrite zlook_app_r by lia. rewrite Z.sub_diag. done. }
  rewrite (rd_ok _ _ _ Hn). cbn [bind]. replace (zlen st - 1) with (zlen init) in Ht by lia. destruct (in_grid_lastaxis init n mf tf t Hgf Ht) as [Ht0 Hiff].
  assert (forall part', is_box st ids part' -> in_grid st tf /\ in_grid st tl /\ part' = zip_with (fun f l => (f, l + 1)) tf tl) as Huniq.
  { intros part' Hbox. assert (in_grid st tf) as Gf. { apply (in_grid_id st init n tf mf); try done; [lia|]. rewrite Ef. destruct Hbox as (Hb & _ & He). eapply (box_id_in st part'); [done|]. rewrite <- He. eapply zlook_elem; done. }
    assert (in_grid st tl) as Gl. { apply (in_grid_id st init n tl ml); try done; [lia|]. rewrite El. destruct Hbox as (Hb & _ & He). eapply (box_id_in st part'); [done|]. rewrite <- He. eapply zlook_elem; done. }
    split; [done|]. split; [done|]. apply (is_box_unique st ids part' f l tf tl); done. }
  destruct ((t <? 0) || (n <=? t)) eqn:E1; cbn [ifthrow].
  { cbn [wp]. exists f. split; [eapply zlook_elem; done|]. destruct (Z.lt_ge_cases f (grid_nb st)) as [Hlt|]; [|done]. assert (in_grid st tf) as G by (apply (in_grid_id st init n tf mf); try done; lia). rewrite Est in G. apply Hiff in G. lia. }
  assert (in_grid st tf) as Gf by (rewrite Est; apply Hiff; lia).
  destruct (zlen ids =? 1) eqn:E2.
  - cbn [wp]. assert (ids = [f]) as Eids. { destruct ids as [|x [|y ids]]; [done| |rewrite !zlen_cons in E2; pose proof (zlen_nonneg ids); lia]. change (Some x = Some f) in Hf. congruence. }
    assert (is_box st ids ((fun t => (t, t + 1)) <$> tf)) as Hbx.
    { assert (box_in st ((fun t => (t, t + 1)) <$> tf)) as Hbin. { clear -Gf. induction Gf as [|m p st tf Hx _ IH]; [constructor|]. rewrite fmap_cons. constructor; [simpl; lia|done]. }
      assert (nonempty_box ((fun t => (t, t + 1)) <$> tf)) as Hnb by (apply Forall_fmap; apply Forall_true; intros x; simpl; lia). split; [done|]. split; [done|].
      assert (zlen (box_ids st ((fun t => (t, t + 1)) <$> tf)) = 1) as HL1. { rewrite box_ids_len; [|by apply box_in_len|by eapply box_in_le]. clear. induction tf as [|x tf IH]; [done|]. unfold box_dims in *. rewrite !fmap_cons. cbn [grid_nb]. rewrite IH. cbn [fst snd]. lia. }
      destruct (box_ids st ((fun t => (t, t + 1)) <$> tf)) as [|x [|y k]] eqn:Eb; [done| |rewrite !zlen_cons in HL1; pose proof (zlen_nonneg k); lia]. assert (x = grid_id st (fst <$> ((fun t => (t, t + 1)) <$> tf))) as ->. { apply box_ids_first; try done. rewrite Eb. done. }
      rewrite Eids. f_equal. rewrite <- Ef. f_equal. clear. induction tf as [|x tf IH]; [done|]. rewrite !fmap_cons. cbn [fst]. by rewrite <- IH. }
    intros part'. split; [|intros ->; done]. intros Hb'. apply Huniq in Hb' as (_ & _ & ->). apply Huniq in Hbx as (_ & _ & ->). done.
  - rewrite (rd_ok _ _ _ Hl). cbn [bind]. rewrite Htl. cbn [bind].
    eapply wp_bind'; [|]. 1:{ eapply wp_mono; [apply (axes_ok st tf tl); try done| |]. - apply Forall_forall. intros x Hx. apply elem_of_list_lookup in Hx as [i Hi]. destruct (Forall2_lookup_r _ _ _ _ _ Hgl Hi) as (y & _ & Hy). simpl in Hy. lia. - intros a Ha. exact Ha.
      - intros Hng. exists l. split; [eapply zlook_elem; done|]. destruct (Z.lt_ge_cases l (grid_nb st)) as [Hlt|]; [|done]. destruct Hng. apply (in_grid_id st init n tl ml); try done; lia. }
    intros [[[part tmp4] szExp] ok]. destruct ok.
    + intros (Epart & E4 & Esz & Hnb & Gl). cbn [negb]. assert (zlen part = zlen st) as Hlp. { rewrite Epart. unfold zlen in *. rewrite zip_with_length. lia. }
      assert (box_in st part) as Hbin. { rewrite Epart in Hnb |- *. clear -Gf Gl Hnb. revert tl Gl Hnb. induction Gf as [|m p st tf Hx _ IH]; intros tl Gl Hnb; inversion Gl as [|? q ? tl' Hq Hr]; subst; [constructor|]. cbn [zip_with] in *. inversion Hnb; subst. constructor; [simpl in *; lia|]. by apply IH. }
      assert (zlen (box_ids st part) = szExp) as Hszb. { rewrite Esz, E4. apply box_ids_len; [done|by eapply box_in_le]. }
      destruct (szExp =? zlen ids) eqn:E5; cbn [negb].
      * destruct (cmp_ok ids (box_ids st part) 0) as [w' Hw]; [done|lia|].
        match goal with |- wp (bind ?x _) _ _ => assert (x = Ok (w', bool_decide (sub ids 0 (0 + zlen (box_ids st part)) = box_ids st part))) as Hx end.
        { etransitivity; [|exact Hw]. exact (cmp_loop st tmp2 part tmp4 (fun c '(w, ok) => if ok : bool then let* x := rd ids w in Ok (w + 1, c =? x) else Ok (w, ok)) (0, true) Hd Hs (eq_sym Hlp) E4). }
        rewrite Hx. clear Hx. cbn [bind wp]. rewrite Z.add_0_l, Hszb. replace szExp with (zlen ids) by lia. rewrite sub_full.
        destruct (bool_decide (ids = box_ids st part)) eqn:E6.
        -- apply bool_decide_eq_true in E6. intros part'. split; [intros Hx; apply Huniq in Hx as (_ & _ & ->); done|]. intros ->. split; [done|]. split; done.
        -- apply bool_decide_eq_false in E6. intros (part' & Hx). pose proof (Huniq _ Hx) as (_ & _ & E7). rewrite E7, <- Epart in Hx. destruct Hx as (_ & _ & Hx). done.
      * cbn [wp]. intros (part' & Hx). pose proof (Huniq _ Hx) as (_ & _ & E7). rewrite E7, <- Epart in Hx. destruct Hx as (_ & _ & Hx). rewrite <- Hx in Hszb. lia.
    + intros (j & x & y & Hx & Hy & Hlt). cbn [negb wp]. intros (part' & Hbx). pose proof (Huniq _ Hbx) as (_ & _ & E7). destruct Hbx as (_ & Hnb & _). rewrite E7 in Hnb.
      pose proof (zlook_Some_lt _ _ _ Hx) as Hj. rewrite zlook_to_nat in Hx, Hy by lia. unfold nonempty_box in Hnb. rewrite Forall_lookup in Hnb. specialize (Hnb (Z.to_nat j) (x, y + 1)). rewrite lookup_zip_with, Hx, Hy in Hnb. specialize (Hnb eq_refl). simpl in Hnb. lia.
Qed.
