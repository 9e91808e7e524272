From Verif Require Import Base ArrLib SearchSpec IndexSpec IndexProofs StdModel StdProofs StrModel StrSpec StrProofs StrProofs2 StrProofs4 ConnProofs ConnProofs2 BlkModel BlkSpec BlkProofs BlkProofs2.
From Coq Require Import ZifyBool ZifyNat.

(** Balanced cuts. *)
Lemma cutLoop_ok n p : 0 <= n -> 0 < p -> exists a, cutLoop n p = Ok a /\ zlen a = p + 1 /\ forall i, 0 <= i <= p -> a @ i = Some (i * (n / p) + Z.min i (n mod p)).
Proof.
  intros Hn Hp. pose proof (Z.mod_pos_bound n p Hp). unfold cutLoop. apply wp_ok.
  apply (wp_forZ (fun i a => zlen a = i /\ forall j, 0 <= j < i -> a @ j = Some (j * (n / p) + Z.min j (n mod p)))).
  - lia.
  - split; [done|]. intros j Hj. assert (j = 0) as -> by lia. rewrite Z.min_l by lia. done.
  - intros i a Hi [Hl Hv]. rewrite (rd_ok _ _ _ (Hv (i - 1) ltac:(lia))). cbn [bind]. replace (p =? 0) with false by lia. cbn [ubif wp]. rewrite zlen_app, Hl. split; [done|]. intros j Hj. destruct (decide (j = i)) as [->|Hne].
    + rewrite zlook_app_r by lia. rewrite Hl, Z.sub_diag. rewrite Z.quot_div_nonneg, Z.rem_mod_nonneg by lia. change ([?x] @ 0) with (Some x); f_equal; generalize (n / p) as q; intros q; destruct (i <=? n mod p) eqn:E; nia.
    + rewrite zlook_app_l by lia. apply Hv. lia.
  - intros a [Hl Hv]. split; [lia|]. intros i Hi. apply Hv. lia.
Qed.
Lemma cutLoop_cuts n p : 0 <= n -> 0 < p -> exists a, cutLoop n p = Ok a /\ cuts a /\ axis_len a = n /\ blocks a = p /\
  forall i lo hi, a @ i = Some lo -> a @ (i + 1) = Some hi -> hi - lo = n / p + (if i <? n mod p then 1 else 0).
Proof.
  intros Hn Hp. destruct (cutLoop_ok n p Hn Hp) as (a & H1 & H2 & H3). exists a. split; [done|]. pose proof (Z.mod_pos_bound n p Hp). pose proof (Z.div_mod n p). pose proof (Z.div_pos n p Hn Hp).
  split; [|split; [|split]].
  - split; [lia|]. split; [rewrite H3 by lia; rewrite Z.min_l by lia; done|]. intros i j x y Hij Hx Hy. pose proof (zlook_Some_lt _ _ _ Hx). pose proof (zlook_Some_lt _ _ _ Hy). rewrite H3 in Hx, Hy by lia. injection Hx as <-. injection Hy as <-. nia.
  - unfold axis_len. rewrite H2. rewrite H3 by lia. cbn. nia.
  - unfold blocks. lia.
  - intros i lo hi Hlo Hhi. pose proof (zlook_Some_lt _ _ _ Hlo). pose proof (zlook_Some_lt _ _ _ Hhi). rewrite H3 in Hlo, Hhi by lia. injection Hlo as <-. injection Hhi as <-. destruct (i <? n mod p) eqn:E; lia.
Qed.
Lemma two_cuts n : 0 <= n -> cuts [0; n] /\ axis_len [0; n] = n /\ blocks [0; n] = 1.
Proof.
  intros Hn. split; [|done]. split; [done|]. split; [done|]. intros i j x y Hij Hx Hy. pose proof (zlook_Some_lt _ _ _ Hx) as Hi. pose proof (zlook_Some_lt _ _ _ Hy) as Hj. change (zlen [0; n]) with 2 in *. assert (i = 0) as -> by lia. assert (j = 1) as -> by lia. injection Hx as <-. injection Hy as <-. done.
Qed.
Lemma two_axes lens : Forall (Z.le 0) lens -> Forall cuts ((fun m => [0; m]) <$> lens) /\ Forall single ((fun m => [0; m]) <$> lens) /\ axis_len <$> ((fun m => [0; m]) <$> lens) = lens /\ blocks <$> ((fun m => [0; m]) <$> lens) = (fun _ => 1) <$> lens.
Proof.
  induction 1 as [|n lens Hn _ (I1 & I2 & I3 & I4)]; [repeat split; constructor|]. rewrite !fmap_cons. destruct (two_cuts n Hn) as (H1 & H2 & H3). split; [by constructor|]. split; [by constructor|]. rewrite I3, I4, H2, H3. done.
Qed.
Lemma fromGrid_ok g n lens : g <> [] -> 0 <= n -> Forall (Z.le 0) lens -> exists t a, fromGrid g (n :: lens) = Ok t /\ distributed t g /\ t_nb t = grid_nb (n :: lens) /\ t_idx t = a :: ((fun m => [0; m]) <$> lens) /\ axis_len a = n /\ blocks a = zlen g /\
  forall i lo hi, a @ i = Some lo -> a @ (i + 1) = Some hi -> hi - lo = n / zlen g + (if i <? n mod zlen g then 1 else 0).
Proof.
  intros Hg Hn Hl. assert (0 < zlen g) as Hz by (destruct g; [done|]; rewrite zlen_cons; pose proof (zlen_nonneg g); lia). destruct (cutLoop_cuts n (zlen g) Hn Hz) as (a & H1 & H2 & H3 & H4 & H5).
  unfold fromGrid. rewrite H1. cbn [bind]. eexists _, a. split; [done|]. destruct (two_axes lens Hl) as (T1 & T2 & T3 & T4).
  assert (foldl Z.mul 1 (n :: lens) = grid_nb (n :: lens)) as Hfold by (rewrite grid_nb_foldl; lia).
  split; [|split; [done|split; [done|split; [done|split; [done|done]]]]].
  constructor; cbn [t_group t_idx t_procs t_cycle t_nb].
  - done.
  - by constructor.
  - exists [], a, ((fun m => [0; m]) <$> lens). done.
  - rewrite fmap_cons, T4, H4. done.
  - rewrite fmap_cons. cbn [grid_nb]. rewrite H4, (singles_nb _ T2). lia.
  - rewrite !fmap_cons. f_equal. clear. induction lens as [|m lens IH]; [done|]. by rewrite !fmap_cons, IH.
  - rewrite Hfold. rewrite fmap_cons, T3, H3. done.
Qed.
Lemma nonneg_nondec arr : (forall i x y, arr @ i = Some x -> arr @ (i + 1) = Some y -> x <= y) -> nondecreasing arr.
Proof.
  intros H i j x y Hij Hx Hy. remember (Z.to_nat (j - i - 1)) as k eqn:Ek. revert j y Hij Hy Ek. induction k as [|k IH]; intros j y Hij Hy Ek.
  - assert (j = i + 1) as -> by lia. by eapply H.
  - pose proof (zlook_Some_lt _ _ _ Hy). pose proof (zlook_Some_lt _ _ _ Hx). destruct (zlook_lt arr (j - 1)) as [z Hz]; [lia|]. pose proof (IH (j - 1) z ltac:(lia) Hz ltac:(lia)). assert (z <= y); [|lia]. apply (H (j - 1)); [done|]. by replace (j - 1 + 1) with j by lia.
Qed.
Lemma fromCounts_ok g counts : g <> [] -> zlen counts = zlen g -> Forall (Z.le 0) counts -> exists t a, fromCounts g counts = Ok t /\ distributed t g /\ t_nb t = zsum counts /\ t_idx t = [a] /\
  forall i lo hi, a @ i = Some lo -> a @ (i + 1) = Some hi -> counts @ i = Some (hi - lo).
Proof.
  intros Hg Hl Hc. assert (0 < zlen g) as Hz by (destruct g; [done|]; rewrite zlen_cons; pose proof (zlen_nonneg g); lia). unfold fromCounts.
  assert (exists s, forZ 1 (zlen g + 1) (fun i '(arr, nb) => let* x := rd arr (i - 1) in let* c := rd counts (i - 1) in Ok (arr ++ [x + c], nb + c)) ([0], 0) = Ok s /\
    (zlen (fst s) = zlen g + 1 /\ fst s @ 0 = Some 0 /\ fst s @ (zlen g) = Some (snd s) /\ snd s = zsum (take (Z.to_nat (zlen g)) counts) /\ forall i lo hi, fst s @ i = Some lo -> fst s @ (i + 1) = Some hi -> counts @ i = Some (hi - lo))) as ([arr nb] & E & A1 & A2 & A3 & A4 & A5).
  { apply wp_ok. apply (wp_forZ (fun i s => zlen (fst s) = i /\ fst s @ 0 = Some 0 /\ fst s @ (i - 1) = Some (snd s) /\ snd s = zsum (take (Z.to_nat (i - 1)) counts) /\ forall j lo hi, fst s @ j = Some lo -> fst s @ (j + 1) = Some hi -> counts @ j = Some (hi - lo))).
    - lia.
    - split; [done|]. split; [done|]. split; [done|]. split; [done|]. intros j lo hi H1 H2. apply zlook_Some_lt in H1. apply zlook_Some_lt in H2. simpl in *. change (zlen [0]) with 1 in *. lia.
    - intros i [arr nb] Hi (B1 & B2 & B3 & B4 & B5). simpl in B1, B2, B3, B4, B5. rewrite (rd_ok _ _ _ B3). cbn [bind]. destruct (zlook_lt counts (i - 1)) as [c Hcc]; [lia|]. rewrite (rd_ok _ _ _ Hcc). cbn [bind wp]. simpl fst. simpl snd. split; [rewrite zlen_app; change (zlen [nb + c]) with 1; lia|]. split; [by rewrite zlook_app_l by lia|].
      split; [replace (i + 1 - 1) with (zlen arr + 0) by lia; rewrite zlook_app_r by lia; replace (zlen arr + 0 - zlen arr) with 0 by lia; done|]. split.
      + replace (Z.to_nat (i + 1 - 1)) with (S (Z.to_nat (i - 1))) by lia. rewrite (take_S_r _ _ c), zsum_app, <- B4; [cbn; lia|]. rewrite <- zlook_to_nat by lia. done.
      + intros j lo hi H1 H2. pose proof (zlook_Some_lt _ _ _ H1) as Hj1. pose proof (zlook_Some_lt _ _ _ H2) as Hj2. rewrite zlen_app in Hj1, Hj2. change (zlen [nb + c]) with 1 in *. rewrite zlook_app_l in H1 by lia. destruct (decide (j + 1 = i)) as [He|].
        * rewrite zlook_app_r in H2 by lia. replace (j + 1 - zlen arr) with 0 in H2 by lia. injection H2 as <-. replace j with (i - 1) in * by lia. rewrite B3 in H1. injection H1 as <-. rewrite Hcc. f_equal. lia.
        * rewrite zlook_app_l in H2 by lia. by apply B5.
    - intros s Hs. replace (zlen g + 1 - 1) with (zlen g) in Hs by lia. exact Hs. }
  rewrite E. cbn [bind]. simpl in A1, A2, A3, A4, A5. eexists _, arr. split; [done|].
  assert (nb = zsum counts) as Hnb. { rewrite A4. rewrite take_ge; [done|]. unfold zlen in Hl |- *. lia. }
  assert (cuts arr) as Hcut. { split; [lia|]. split; [done|]. apply nonneg_nondec. intros i x y H1 H2. pose proof (A5 i x y H1 H2) as H3. apply zlook_elem in H3. rewrite Forall_forall in Hc. apply Hc in H3. lia. }
  assert (axis_len arr = nb) as Hax. { unfold axis_len. replace (zlen arr - 1) with (zlen g) by lia. by rewrite A3. }
  split; [|done]. constructor; cbn [t_group t_idx t_procs t_cycle t_nb].
  - done.
  - constructor; [done|constructor].
  - exists [], arr, []. repeat split; constructor.
  - cbn. unfold blocks. do 2 f_equal. lia.
  - cbn. unfold blocks. lia.
  - done.
  - cbn. rewrite Hax. lia.
Qed.
(** Composition with a distribution of the components. *)
Lemma nbComponents_ok c : cuts (c_arr c) -> nbComponents c = Ok (axis_len (c_arr c)).
Proof. intros H. apply rd_ok. by apply cuts_last. Qed.
Lemma all_single idx : Forall cuts idx -> one_split idx -> grid_nb (blocks <$> idx) = 1 -> Forall single idx.
Proof.
  intros Hc (pre & a & post & -> & S1 & S2) H. rewrite fmap_app, fmap_cons, grid_nb_app in H. cbn [grid_nb] in H. rewrite (singles_nb _ S1), (singles_nb _ S2) in H. apply Forall_app. split; [done|]. constructor; [unfold single; lia|done].
Qed.
Lemma compose_ok t g c : distributed t g -> comp_ok c -> zlen g = 1 \/ blocks (c_arr c) = 1 -> axis_len (c_arr c) <> 1 ->
  exists t', compose t c = Ok t' /\ t_nb t' = t_nb t * axis_len (c_arr c) /\ t_idx t' = t_idx t ++ [c_arr c] /\
    (if 1 <? blocks (c_arr c) then forall g', c_group c = Some g' -> distributed t' g' else distributed t' g).
Proof.
  intros [Hg Hc Hs Hp Hz Hcy Hn] [Hcut Hgrp] Hone Hax. unfold compose, group. rewrite Hg. unfold nbBlocks. change (zlen (c_arr c) - 1) with (blocks (c_arr c)). replace ((1 <? zlen g) && (1 <? blocks (c_arr c))) with false by lia. cbn [ifthrow]. rewrite nbComponents_ok by done. cbn [bind]. replace (axis_len (c_arr c) =? 1) with false by lia.
  eexists. split; [done|]. split; [done|]. split; [done|]. assert (1 <= blocks (c_arr c)) by (destruct Hcut; unfold blocks; lia).
  assert (forall g', (if 1 <? blocks (c_arr c) then c_group c else Some g) = Some g' -> zlen g' = zlen g * blocks (c_arr c) -> distributed (Topo (t_procs t ++ [blocks (c_arr c)]) (t_idx t ++ [c_arr c]) (t_cycle t ++ [0]) (if 1 <? blocks (c_arr c) then c_group c else Some g) (t_nb t * axis_len (c_arr c))) g') as HD.
  { intros g' H1 H2. constructor; cbn [t_group t_idx t_procs t_cycle t_nb].
    - done.
    - apply Forall_app. split; [done|]. constructor; [done|constructor].
    - destruct Hone as [H1'|Hb1].
      + exists (t_idx t), (c_arr c), []. split; [done|]. split; [apply all_single; [done|done|lia]|constructor].
      + destruct Hs as (pre & a & post & E & S1 & S2). exists pre, a, (post ++ [c_arr c]). rewrite E, <- app_assoc. split; [done|]. split; [done|]. apply Forall_app. split; [done|]. constructor; [done|constructor].
    - rewrite fmap_app, Hp. done.
    - rewrite fmap_app, grid_nb_app. cbn. lia.
    - rewrite fmap_app, Hcy. done.
    - rewrite fmap_app, grid_nb_app, Hn. cbn. lia. }
  destruct (1 <? blocks (c_arr c)) eqn:E.
  - intros g' H1. apply HD; [done|]. rewrite (Hgrp g' H1). assert (zlen g = 1) by lia. lia.
  - apply HD; [done|]. assert (blocks (c_arr c) = 1) by lia. lia.
Qed.
Lemma compose_one t g c : distributed t g -> comp_ok c -> axis_len (c_arr c) = 1 -> zlen g = 1 \/ blocks (c_arr c) = 1 -> compose t c = Ok t.
Proof.
  intros [Hg _ _ _ _ _ _] [Hcut _] Hax Hone. unfold compose, group. rewrite Hg. unfold nbBlocks. change (zlen (c_arr c) - 1) with (blocks (c_arr c)). replace ((1 <? zlen g) && (1 <? blocks (c_arr c))) with false by lia. cbn [ifthrow]. rewrite nbComponents_ok by done. cbn [bind]. rewrite Hax. done.
Qed.
Lemma compose_throw t g c : distributed t g -> 1 < zlen g -> 1 < blocks (c_arr c) -> compose t c = Throw.
Proof.
  intros [Hg _ _ _ _ _ _] H1 H2. unfold compose, group. rewrite Hg. unfold nbBlocks. change (zlen (c_arr c) - 1) with (blocks (c_arr c)). replace ((1 <? zlen g) && (1 <? blocks (c_arr c))) with true by lia. done.
Qed.
Lemma compOfGroup_ok n g : g <> [] -> zlen g <= n -> exists c, compOfGroup n g = Ok c /\ comp_ok c /\ axis_len (c_arr c) = n /\ blocks (c_arr c) = zlen g /\ c_group c = Some g.
Proof.
  intros Hg Hn. assert (0 < zlen g) as Hz by (destruct g; [done|]; rewrite zlen_cons; pose proof (zlen_nonneg g); lia). destruct (cutLoop_cuts n (zlen g)) as (a & H1 & H2 & H3 & H4 & _); [lia|lia|]. unfold compOfGroup. replace (n <? zlen g) with false by lia. cbn [ifthrow]. rewrite H1. cbn [bind]. eexists. split; [done|]. split; [split; [done|]|done]. intros g' [= <-]. done.
Qed.
Lemma compOne_ok n : 0 <= n -> comp_ok (compOne n) /\ axis_len (c_arr (compOne n)) = n /\ blocks (c_arr (compOne n)) = 1.
Proof. intros Hn. destruct (two_cuts n Hn) as (H1 & H2 & H3). split; [split; [done|]; by intros g|done]. Qed.

(** The statements in terms of the functions only. *)
Lemma round_trip t g x : distributed t g -> 0 <= x < t_nb t -> exists p l n, globalToLocal t x = Ok (p, l) /\ 0 <= p < zlen g /\ getNbLocalElements t p = Ok n /\ 0 <= l < n /\
  forall r, getNbLocalElements t r = Ok n -> localToGlobal t r (p, l) = Ok x.
Proof.
  intros H Hx. pose proof H as [Hg Hc Hs Hp Hz Hcy Hn]. rewrite Hn in Hx. destruct (row_onto _ x (lens_nonneg _ Hc) Hx) as (pos & Hpos & ->). destruct (globalToLocal_ok t g pos H Hpos) as (p & l & E & Hh). pose proof Hh as (bx & Hbx & Hin & El).
  pose proof (box_of_range _ _ _ Hbx) as Hr. rewrite <- Hz in Hr. destruct (getNbLocal_ok t g p H Hr) as (bx' & Hbx' & En). pose proof (box_of_fun _ _ _ _ Hbx Hbx') as <-. exists p, l, (grid_nb (box_dims bx)). split; [done|]. split; [done|]. split; [done|]. split.
  - rewrite El. apply row_range. by apply offs_in.
  - intros r Er. eapply localToGlobal_ok; [done|done|congruence].
Qed.
Lemma round_trip_local t g p l n : distributed t g -> 0 <= p < zlen g -> getNbLocalElements t p = Ok n -> 0 <= l < n -> exists x, localToGlobal t p (p, l) = Ok x /\ 0 <= x < t_nb t /\ globalToLocal t x = Ok (p, l).
Proof.
  intros H Hr En Hl. pose proof H as [Hg Hc Hs Hp Hz Hcy Hn]. destruct (getNbLocal_ok t g p H Hr) as (bx & Hbx & En'). rewrite En in En'. injection En' as ->. destruct (holds_exists _ _ _ _ Hc Hbx Hl) as (pos & Hh & Hpos).
  exists (row_id (axis_len <$> t_idx t) pos). split; [by eapply localToGlobal_ok|]. split; [rewrite Hn; by apply row_range|]. destruct (globalToLocal_ok t g pos H Hpos) as (p' & l' & E & Hh'). destruct (holds_fun _ _ _ _ _ _ Hc Hh Hh') as [-> ->]. done.
Qed.
Lemma telescope C ns : forall a x0 y, zlen a = zlen ns + 1 -> a @ 0 = Some x0 -> a @ (zlen ns) = Some y -> (forall i n lo hi, ns @ i = Some n -> a @ i = Some lo -> a @ (i + 1) = Some hi -> n = C * (hi - lo)) -> zsum ns = C * (y - x0).
Proof.
  induction ns as [|n ns IH]; intros a x0 y Hl H0 Hy H.
  - rewrite zlen_nil in Hy. rewrite H0 in Hy. injection Hy as <-. cbn. lia.
  - rewrite zlen_cons in *. pose proof (zlen_nonneg ns). destruct a as [|x a]; [done|]. injection H0 as ->. rewrite zlen_cons in Hl. destruct (zlook_lt a 0) as [x1 Hx1]; [lia|].
    assert (forall i, 0 <= i -> (x0 :: a) @ (i + 1) = a @ i) as Hs by (intros i Hi; rewrite zlook_cons; replace (i + 1 =? 0) with false by lia; f_equal; lia).
    assert (forall i, 0 <= i -> (n :: ns) @ (i + 1) = ns @ i) as Hs' by (intros i Hi; rewrite zlook_cons; replace (i + 1 =? 0) with false by lia; f_equal; lia).
    assert (n = C * (x1 - x0)) as E. { apply (H 0); [done|done|]. rewrite (Hs 0) by lia. done. }
    change (zsum (n :: ns)) with (n + zsum ns). rewrite (IH a x1 y); [lia|lia|done| |].
    + rewrite <- Hs by lia. rewrite <- Hy. f_equal; lia.
    + intros i m lo hi G1 G2 G3. pose proof (zlook_Some_lt _ _ _ G1). apply (H (i + 1)); [by rewrite Hs' by lia|by rewrite Hs by lia|by rewrite Hs by lia].
Qed.
Lemma sum_local t g ns : distributed t g -> zlen ns = zlen g -> (forall p n, ns @ p = Some n -> getNbLocalElements t p = Ok n) -> zsum ns = t_nb t.
Proof.
  intros H Hl Hns. pose proof H as [Hg Hc Hs Hp Hz Hcy Hn]. destruct Hs as (pre & a & post & E & S1 & S2). pose proof (d_cuts _ _ H) as Hcc. rewrite E in Hcc. apply Forall_app in Hcc as [Hc1 Hc2]. inversion Hc2 as [|? ? Ha Hc3]; subst.
  rewrite E in Hz. rewrite fmap_app, fmap_cons, grid_nb_app in Hz. cbn [grid_nb] in Hz. rewrite (singles_nb pre S1), (singles_nb post S2) in Hz.
  rewrite (telescope (grid_nb (axis_len <$> pre) * grid_nb (axis_len <$> post)) ns a 0 (axis_len a)).
  - rewrite Hn, E, fmap_app, fmap_cons, grid_nb_app. cbn [grid_nb]. lia.
  - unfold blocks in Hz. lia.
  - apply Ha.
  - rewrite <- (cuts_last a Ha). f_equal. unfold blocks in Hz. lia.
  - intros p n lo hi H1 H2 H3. pose proof (zlook_Some_lt _ _ _ H1). specialize (Hns p n H1). rewrite (nbLocal_split t g p pre a post lo hi) in Hns; [|done|lia|done|done|done|lia|done|done]. injection Hns as <-. lia.
Qed.
Definition M1 (p : Z) : list (Z * Z) * Z -> Z * list Z -> res (list (Z * Z) * Z) := fun '(l, increment) '(np, ind) =>
    let increment := increment * np in
    ub_if increment =? 0 >>>
    let idim := Z.rem p increment in
    let* imin := rd ind idim in let* imax := rd ind (idim + 1) in
    Ok ((imin, imax) :: l, increment).
(** The bounds of the local box, when the first axis is the one that is cut. *)
Lemma minMax_ok t g p a post : distributed t g -> t_idx t = a :: post -> Forall single post -> 0 <= p < zlen g -> exists bx, getLocalArrayMinMax t p = Ok bx /\ box_of (t_idx t) p bx.
Proof.
  intros H E S2 Hr. pose proof H as [Hg Hc Hs Hp Hz Hcy Hn]. rewrite E in *. inversion Hc as [|? ? Ha Hc2]; subst. rewrite fmap_cons in Hz. cbn [grid_nb] in Hz. rewrite (singles_nb post S2) in Hz.
  unfold getLocalArrayMinMax, group. rewrite Hg, Hp, E, fmap_cons. fold (M1 p). cbn [zip_with]. cbn [rev]. rewrite foldM_app'.
  assert (forall l, Forall cuts l -> Forall single l -> foldM (M1 p) (rev (zip (blocks <$> l) l)) ([], 1) = Ok ((fun a => (0, axis_len a)) <$> l, 1)) as HF.
  { induction l as [|c l IH]; intros Hc1 Hs1; [done|]. inversion Hc1; subst. inversion Hs1 as [|? ? Hs11 ?]; subst. rewrite !fmap_cons. cbn [zip_with]. cbn [rev]. rewrite foldM_app', IH by done. cbn [bind foldM]. unfold M1. rewrite Hs11. change (1 * 1 =? 0) with false. cbn [ubif]. change (1 * 1) with 1. rewrite Z.rem_1_r. destruct (single_look c) as [L0 L1']; [done|done|]. rewrite (rd_ok _ _ _ L0). cbn [bind]. change (0 + 1) with 1. rewrite (rd_ok _ _ _ L1'). done. }
  rewrite HF by done. cbn [bind foldM]. unfold M1. replace (1 * blocks a =? 0) with false by lia. cbn [ubif]. rewrite Z.mul_1_l, Z.rem_small by lia. unfold blocks in Hz. destruct (zlook_lt a p) as [lo Hlo]; [lia|]. destruct (zlook_lt a (p + 1)) as [hi Hhi]; [lia|]. rewrite (rd_ok _ _ _ Hlo). cbn [bind]. rewrite (rd_ok _ _ _ Hhi). cbn [bind].
  eexists. split; [done|]. exists (p :: ((fun _ => 0) <$> post)).
  assert (block_box post ((fun _ => 0) <$> post) ((fun a => (0, axis_len a)) <$> post)) as HB. { clear -Hc2 S2. induction Hc2; [constructor|]. inversion S2; subst. rewrite !fmap_cons. apply bb_cons. split; [by apply single_look|by apply IHHc2]. }
  split; [by apply bb_cons|]. rewrite fmap_cons. cbn [row_id]. rewrite (singles_nb post S2). destruct (singles_row post _ S2 (bb_grid _ _ _ HB)) as (-> & _). lia.
Qed.
(** Serialization. *)
Lemma foldM_any {S} (f : S -> res S) (l l' : list Z) s : length l = length l' -> foldM (fun s _ => f s) l s = foldM (fun s _ => f s) l' s.
Proof. revert l' s. induction l as [|x l IH]; intros [|y l'] s H; try done. cbn in H. cbn [foldM]. destruct (f s); [|done..]. cbn [bind]. apply IH. lia. Qed.
Lemma forZ_any {S} (f : S -> res S) lo n s : forZ lo (lo + n) (fun _ => f) s = forZ 0 n (fun _ => f) s.
Proof. unfold forZ. apply foldM_any. rewrite !seqZ_length. lia. Qed.
Lemma read_list {S} (k : Z -> S -> S) (buf pre a post : list Z) (acc : S) : buf = pre ++ a ++ post -> forZ 0 (zlen a) (fun _ '(p, s) => let* x := rd buf p in Ok (p + 1, k x s)) (zlen pre, acc) = Ok (zlen pre + zlen a, foldl (fun s x => k x s) acc a).
Proof.
  intros ->. revert pre acc. induction a as [|x a IH]; intros pre acc; [change (zlen (@nil Z)) with 0; rewrite forZ_empty by lia; rewrite Z.add_0_r; done|].
  rewrite zlen_cons. pose proof (zlen_nonneg a). rewrite forZ_step by lia. rewrite (rd_ok _ _ x) by (rewrite zlook_app_r by lia; rewrite Z.sub_diag; done). cbn [bind].
  change (0 + 1) with 1. rewrite (forZ_any _ 1 (zlen a)). specialize (IH (pre ++ [x]) (k x acc)). rewrite zlen_app in IH. change (zlen [x]) with 1 in IH. rewrite <- !app_assoc in IH. cbn [foldl]. rewrite <- app_comm_cons.
  replace (zlen pre + (1 + zlen a)) with (zlen pre + 1 + zlen a) by lia. exact IH.
Qed.
Lemma foldl_snoc (acc a : list Z) : foldl (fun s x => s ++ [x]) acc a = acc ++ a.
Proof. revert acc. induction a as [|x a IH]; intros acc; [by rewrite app_nil_r|]. cbn [foldl]. rewrite IH, <- app_assoc. done. Qed.
Lemma read_axis (buf pre a post acc : list Z) : buf = pre ++ a ++ post -> forZ 0 (zlen a) (fun _ '(p, ind) => let* x := rd buf p in Ok (p + 1, ind ++ [x])) (zlen pre, acc) = Ok (zlen pre + zlen a, acc ++ a).
Proof. intros H. rewrite <- foldl_snoc. exact (read_list (fun x s => s ++ [x]) buf pre a post acc H). Qed.
Definition U1 (buf : list Z) : Z * list Z * list Z * list (list Z) -> res (Z * list Z * list Z * list (list Z)) := fun '(p, procs, cyc, idx) =>
    let* np := rd buf p in let* cy := rd buf (p + 1) in let* n := rd buf (p + 2) in
    ub_if n <? 0 >>>
    let* (p, ind) := forZ 0 n (fun _ '(p, ind) => let* x := rd buf p in Ok (p + 1, ind ++ [x])) (p + 3, []) in
    Ok (p, procs ++ [np], cyc ++ [cy], idx ++ [ind]).
Definition ser (procs cyc : list Z) (idx : list (list Z)) : list Z := concat (zip_with (fun '(np, cy) ind => [np; cy; zlen ind] ++ ind) (zip procs cyc) idx).
Lemma U1_ok buf procs cyc idx : forall pre post P C I, length procs = length idx -> length cyc = length idx -> buf = pre ++ ser procs cyc idx ++ post ->
  forZ 0 (zlen idx) (fun _ => U1 buf) (zlen pre, P, C, I) = Ok (zlen pre + zlen (ser procs cyc idx), P ++ procs, C ++ cyc, I ++ idx).
Proof.
  revert procs cyc. induction idx as [|a idx IH]; intros procs cyc pre post P C I Hp Hc Hb.
  - destruct procs; [|done]. destruct cyc; [|done]. change (ser [] [] []) with (@nil Z). change (zlen (@nil (list Z))) with 0; change (zlen (@nil Z)) with 0. rewrite forZ_empty by lia. rewrite !app_nil_r, Z.add_0_r. done.
  - destruct procs as [|np procs]; [done|]. destruct cyc as [|cy cyc]; [done|]. cbn in Hp, Hc. rewrite zlen_cons. pose proof (zlen_nonneg idx). rewrite forZ_step by lia. change (0 + 1) with 1.
    change (ser (np :: procs) (cy :: cyc) (a :: idx)) with (([np; cy; zlen a] ++ a) ++ ser procs cyc idx) in *. unfold U1 at 1.
    assert (forall k x, 0 <= k -> [np; cy; zlen a] @ k = Some x -> buf @ (zlen pre + k) = Some x) as Hk.
    { intros k x H1 H2. rewrite Hb. rewrite zlook_app_r by lia. replace (zlen pre + k - zlen pre) with k by lia. rewrite <- !app_assoc. rewrite zlook_app_l; [done|]. apply zlook_Some_lt in H2. lia. }
    rewrite (rd_ok _ _ np) by (rewrite <- (Z.add_0_r (zlen pre)); apply Hk; [lia|done]). cbn [bind]. rewrite (rd_ok _ _ cy) by (apply Hk; [lia|done]). cbn [bind]. rewrite (rd_ok _ _ (zlen a)) by (apply Hk; [lia|done]). cbn [bind].
    pose proof (zlen_nonneg a). replace (zlen a <? 0) with false by lia. cbn [ubif]. pose proof (read_axis buf (pre ++ [np; cy; zlen a]) a (ser procs cyc idx ++ post) []) as Hra. rewrite zlen_app in Hra. change (zlen [np; cy; zlen a]) with 3 in Hra. rewrite Hra; [|rewrite Hb, <- !app_assoc; done]. cbn [bind].
    rewrite (forZ_any _ 1 (zlen idx)). specialize (IH procs cyc (pre ++ [np; cy; zlen a] ++ a) post (P ++ [np]) (C ++ [cy]) (I ++ [a])). rewrite !zlen_app in IH. change (zlen [np; cy; zlen a]) with 3 in IH.
    replace (zlen pre + 3 + zlen a) with (zlen pre + (3 + zlen a)) by lia. change ([] ++ a) with a. rewrite IH; [|lia|lia|rewrite Hb, <- !app_assoc; done]. rewrite !zlen_app. change (zlen [np; cy; zlen a]) with 3. rewrite <- !app_assoc. do 4 f_equal. lia.
Qed.
Lemma serialize_ok t g : t_group t = Some g -> length (t_procs t) = length (t_idx t) -> length (t_cycle t) = length (t_idx t) ->
  exists buf, serialize t = Ok buf /\ unserialize buf = Ok (Topo (t_procs t) (t_idx t) (t_cycle t) (Some (set_of g)) (t_nb t)).
Proof.
  intros Hg Hp Hc. unfold serialize, group. rewrite Hg. eexists. split; [done|]. fold (ser (t_procs t) (t_cycle t) (t_idx t)). set (buf := [t_dim t; t_nb t] ++ ser (t_procs t) (t_cycle t) (t_idx t) ++ [zlen g] ++ g). unfold unserialize.
  rewrite (rd_ok _ _ (t_dim t)) by done. cbn [bind]. rewrite (rd_ok _ _ (t_nb t)) by done. cbn [bind]. unfold t_dim. pose proof (zlen_nonneg (t_idx t)). replace (zlen (t_idx t) <? 0) with false by lia. cbn [ubif]. fold (U1 buf).
  change (2, [], [], []) with (zlen [t_dim t; t_nb t], @nil Z, @nil Z, @nil (list Z)). rewrite (U1_ok buf (t_procs t) (t_cycle t) (t_idx t) [t_dim t; t_nb t] ([zlen g] ++ g)) by done. cbn [bind]. change (zlen [t_dim t; t_nb t]) with 2.
  rewrite (rd_ok _ _ (zlen g)). 2:{ unfold buf. rewrite app_assoc. rewrite zlook_app_r by (rewrite zlen_app; change (zlen [t_dim t; t_nb t]) with 2; lia). rewrite zlen_app. change (zlen [t_dim t; t_nb t]) with 2. rewrite Z.sub_diag. done. }
  cbn [bind]. pose proof (read_list sins buf ([t_dim t; t_nb t] ++ ser (t_procs t) (t_cycle t) (t_idx t) ++ [zlen g]) g [] (@nil Z)) as Hr. rewrite !zlen_app in Hr. change (zlen [t_dim t; t_nb t]) with 2 in Hr. change (zlen [zlen g]) with 1 in Hr. rewrite Z.add_assoc in Hr. rewrite Hr; [|unfold buf; rewrite app_nil_r, <- !app_assoc; done]. cbn [bind].
  do 2 f_equal.
Qed.
Lemma set_of_sorted l : increasing l -> set_of l = l.
Proof. intros H. apply (enumerates_ext (fun x => x ∈ l)); [|done]. split; [apply increasing_SS, SS_set_of|]. intros x. apply elem_of_set_of. Qed.

(** Where the code fails. *)
Definition ex_uneven : topo := Topo [2] [[0; 2; 3]] [0] (Some [0; 1]) 3.
Lemma other_rank_wrong : exists g lens t x p l r y, fromGrid g lens = Ok t /\ 0 <= x < t_nb t /\ 0 <= r < zlen g /\ globalToLocal t x = Ok (p, l) /\ localToGlobal t r (p, l) = Ok y /\ y <> x.
Proof. exists [0; 1], [3], ex_uneven, 1, 0, 1, 1, 0. repeat split; try done; vm_compute; done. Qed.
Lemma outside_ub : exists g lens t x, fromGrid g lens = Ok t /\ x = t_nb t /\ globalToLocal t x = UB.
Proof. exists [0; 1], [3], ex_uneven, 3. repeat split; vm_compute; done. Qed.
Definition ex_comp : topo := Topo [1; 2] [[0; 2]; [0; 1; 2]] [0; 0] (Some [0; 1]) 4.
Lemma minMax_ub : exists g lens geom n g' c t r, fromGrid g lens = Ok geom /\ compOfGroup n g' = Ok c /\ compose geom c = Ok t /\ distributed t g' /\ 0 <= r < zlen g' /\ getLocalArrayMinMax t r = UB.
Proof.
  exists [0], [2], (Topo [1] [[0; 2]] [0] (Some [0]) 2), 2, [0; 1], (Comp [0; 1; 2] (Some [0; 1])), ex_comp, 1. split; [vm_compute; done|]. split; [vm_compute; done|]. split; [vm_compute; done|]. split; [|split; [done|vm_compute; done]].
  destruct (fromGrid_ok [0] 2 []) as (t & a & H1 & H2 & _); [done|lia|constructor|]. vm_compute in H1. injection H1 as <-. destruct (compOfGroup_ok 2 [0; 1]) as (c & H3 & H4 & H5 & H6 & H7); [done|vm_compute; done|]. vm_compute in H3. injection H3 as <-.
  destruct (compose_ok _ [0] _ H2 H4) as (t & E & _ & _ & Ht); [by left|done|]. vm_compute in E. injection E as <-. exact (Ht [0; 1] eq_refl).
Qed.
Lemma no_group_ub : exists g lens geom n b c t, fromGrid g lens = Ok geom /\ compOfBlocks n b = Ok c /\ compose geom c = Ok t /\ forall x r l, globalToLocal t x = UB /\ getNbLocalElements t r = UB /\ localToGlobal t r l = UB /\ serialize t = UB.
Proof.
  exists [0], [2], (Topo [1] [[0; 2]] [0] (Some [0]) 2), 2, 2, (Comp [0; 1; 2] None), (Topo [1; 2] [[0; 2]; [0; 1; 2]] [0; 0] None 4). split; [vm_compute; done|]. split; [vm_compute; done|]. split; [vm_compute; done|]. done.
Qed.
Lemma order_lost : exists t g buf t', fromGrid g [2] = Ok t /\ distributed t g /\ NoDup g /\ serialize t = Ok buf /\ unserialize buf = Ok t' /\ t_group t' <> t_group t /\ t_idx t' = t_idx t.
Proof.
  exists (Topo [2] [[0; 1; 2]] [0] (Some [5; 3]) 2), [5; 3]. destruct (fromGrid_ok [5; 3] 2 []) as (t & a & H1 & H2 & _); [done|lia|constructor|]. vm_compute in H1. injection H1 as <-.
  eexists _, (Topo [2] [[0; 1; 2]] [0] (Some [3; 5]) 2). split; [vm_compute; done|]. split; [done|]. split; [apply (bool_decide_unpack _); vm_compute; done|]. split; [done|]. split; [vm_compute; done|]. split; [done|done].
Qed.
Lemma serialize_same t g : t_group t = Some g -> increasing g -> length (t_procs t) = length (t_idx t) -> length (t_cycle t) = length (t_idx t) -> exists buf, serialize t = Ok buf /\ unserialize buf = Ok t.
Proof.
  intros Hg Hi Hp Hc. destruct (serialize_ok t g Hg Hp Hc) as (buf & H1 & H2). exists buf. split; [done|]. rewrite H2, (set_of_sorted g Hi), <- Hg. by destruct t.
Qed.
