From Verif Require Import Base ArrLib SearchSpec StdProofs StrModel StrSpec StrProofs StrProofs2 StrProofs4 ConnProofs ConnProofs2 BlkModel BlkSpec BlkProofs.
From Coq Require Import ZifyBool ZifyNat.

(** From a global number to a process. *)
Definition G1 (P : Z) : Z * Z * Z * list (list Z * Z * Z) -> list Z -> res (Z * Z * Z * list (list Z * Z * Z)) :=
  fun '(sub, position, increment, axes) ind =>
    let axis_size := zlen ind - 1 in
    let* axis_nb_elem := rd ind axis_size in
    ub_if axis_nb_elem =? 0 >>>
    let increment := Z.quot increment axis_nb_elem in
    ub_if axis_size =? 0 >>>
    let proc_increment := Z.quot P axis_size in
    ub_if increment =? 0 >>>
    let axis_pos := Z.quot position increment in
    let position := Z.rem position increment in
    let* (iaxis, sub) := findBlock ind axis_pos proc_increment sub in
    let* lo := rd ind (iaxis - 1) in
    Ok (sub, position, increment, axes ++ [(ind, axis_pos - lo, iaxis)]).
Definition G2 : Z * Z -> list Z * Z * Z -> res (Z * Z) := fun '(local, local_increment) '(ind, pos, off) =>
    let local := local + pos * local_increment in
    let* hi := rd ind off in let* lo := rd ind (off - 1) in
    Ok (local, local_increment * (hi - lo)).
Fixpoint wsum (P : Z) (idx : list (list Z)) (bs : list Z) : Z :=
  match idx, bs with a :: idx, b :: bs => b * Z.quot P (blocks a) + wsum P idx bs | _, _ => 0 end.
Fixpoint trip (idx : list (list Z)) (os bs : list Z) : list (list Z * Z * Z) :=
  match idx, os, bs with a :: idx, o :: os, b :: bs => (a, o, b + 1) :: trip idx os bs | _, _, _ => [] end.
Lemma G1_ok P idx pos sub acc : Forall cuts idx -> in_grid (axis_len <$> idx) pos -> exists bs bx, block_box idx bs bx /\ in_box bx pos /\
  foldM (G1 P) idx (sub, row_id (axis_len <$> idx) pos, grid_nb (axis_len <$> idx), acc) = Ok (sub + wsum P idx bs, 0, 1, acc ++ trip idx (offs pos bx) bs).
Proof.
  intros Hc. revert pos sub acc. induction Hc as [|a idx Ha Hc IH]; intros pos sub acc Hp.
  - inversion Hp; subst. exists [], []. split; [constructor|]. split; [constructor|]. cbn. rewrite app_nil_r. do 3 f_equal. by rewrite Z.add_0_r.
  - rewrite fmap_cons in *. destruct pos as [|x pos]; [inversion Hp|]. destruct (row_step _ _ _ _ Hp) as (Hg & Hq & Hr). inversion Hp as [|? ? ? ? Hx Hps]; subst.
    assert (1 <= blocks a) by (destruct Ha; unfold blocks; lia).
    destruct (findBlock_ok a x (Z.quot P (zlen a - 1)) sub Ha Hx) as (b & lo & hi & Hf & Hlo & Hhi & Hin).
    destruct (IH pos (sub + b * Z.quot P (zlen a - 1)) (acc ++ [(a, x - lo, b + 1)]) Hps) as (bs & bx & H1 & H2 & H3).
    exists (b :: bs), ((lo, hi) :: bx). split; [by apply bb_cons|]. split; [constructor; [done|done]|].
    cbn [foldM]. unfold G1 at 1. rewrite (rd_ok _ _ _ (cuts_last a Ha)). cbn [bind]. replace (axis_len a =? 0) with false by lia. cbn [ubif]. unfold blocks in *. replace (zlen a - 1 =? 0) with false by lia. cbn [ubif].
    rewrite quot_head by lia. replace (grid_nb (axis_len <$> idx) =? 0) with false by lia. cbn [ubif]. rewrite Hq, Hr, Hf. cbn [bind]. replace (b + 1 - 1) with b by lia. rewrite (rd_ok _ _ _ Hlo). cbn [bind]. rewrite H3.
    cbn [wsum trip offs zip_with fst]. do 2 f_equal; [do 2 f_equal; unfold blocks; lia|]. rewrite <- app_assoc. done.
Qed.
Lemma G2_ok idx bs bx os : block_box idx bs bx -> length os = length idx -> foldM G2 (rev (trip idx os bs)) (0, 1) = Ok (row_id (box_dims bx) os, grid_nb (box_dims bx)).
Proof.
  intros H. revert os. induction H as [|a b [lo hi] idx bs bx [H1 H2] _ IH]; intros [|o os] Hl; try done. cbn in Hl. cbn [trip]. cbn [rev]. rewrite foldM_app', IH by lia. cbn [bind foldM]. unfold G2. rewrite (rd_ok _ _ _ H2). cbn [bind]. replace (b + 1 - 1) with b by lia. rewrite (rd_ok _ _ _ H1). cbn [bind].
  unfold box_dims. rewrite fmap_cons. cbn [row_id grid_nb fst snd]. do 2 f_equal; lia.
Qed.
Lemma singles_row l bs : Forall single l -> in_grid (blocks <$> l) bs -> row_id (blocks <$> l) bs = 0 /\ grid_nb (blocks <$> l) = 1 /\ forall P, wsum P l bs = 0.
Proof.
  intros H. revert bs. induction H as [|a l Ha _ IH]; intros bs Hb; [inversion Hb; subst; done|]. rewrite fmap_cons in *. inversion Hb as [|? b ? bs' Hb1 Hb2]; subst. destruct (IH bs' Hb2) as (H1 & H2 & H3). unfold single in Ha. assert (b = 0) as -> by lia. cbn [row_id grid_nb wsum]. rewrite H1, H2, Ha. split; [done|]. split; [done|]. intros P. rewrite H3. lia.
Qed.
Lemma singles_nb l : Forall single l -> grid_nb (blocks <$> l) = 1.
Proof. induction 1 as [|a l Ha _ IH]; [done|]. rewrite fmap_cons. cbn [grid_nb]. rewrite IH, Ha. done. Qed.
Lemma wsum_app P l1 l2 b1 b2 : length l1 = length b1 -> wsum P (l1 ++ l2) (b1 ++ b2) = wsum P l1 b1 + wsum P l2 b2.
Proof. revert b1. induction l1 as [|a l1 IH]; intros [|b b1] H; try done. cbn in H. rewrite <- !app_comm_cons. cbn [wsum]. rewrite IH by lia. lia. Qed.
(** The blocks of an at most once cut domain. *)
Lemma split_bs pre a post bs : Forall single pre -> Forall single post -> 1 <= blocks a -> in_grid (blocks <$> (pre ++ a :: post)) bs ->
  exists b1 b b2, bs = b1 ++ b :: b2 /\ length b1 = length pre /\ in_grid (blocks <$> pre) b1 /\ in_grid (blocks <$> post) b2 /\ 0 <= b < blocks a /\ row_id (blocks <$> (pre ++ a :: post)) bs = b /\ grid_nb (blocks <$> (pre ++ a :: post)) = blocks a.
Proof.
  intros H1 H2 Ha H. rewrite fmap_app, fmap_cons in *. unfold in_grid in H. apply Forall2_app_inv_l in H as (b1 & b2 & Hb1 & Hb2 & ->). inversion Hb2 as [|? b ? b2' Hb Hb2']; subst. exists b1, b, b2'. split; [done|].
  assert (length b1 = length pre) as Hl by (apply Forall2_length in Hb1; rewrite fmap_length in Hb1; done). split; [done|]. split; [done|]. split; [done|]. split; [done|].
  destruct (singles_row pre b1 H1 Hb1) as (E1 & E2 & _). destruct (singles_row post b2' H2 Hb2') as (E3 & E4 & _). rewrite row_app by (by rewrite fmap_length). rewrite grid_nb_app. cbn [row_id grid_nb]. rewrite E1, E2, E3, E4. lia.
Qed.
Lemma wsum_row idx bs : Forall cuts idx -> one_split idx -> in_grid (blocks <$> idx) bs -> wsum (grid_nb (blocks <$> idx)) idx bs = row_id (blocks <$> idx) bs.
Proof.
  intros Hc (pre & a & post & -> & H1 & H2) H. assert (1 <= blocks a) as Ha. { apply Forall_app in Hc as [_ Hc]. inversion Hc as [|? ? Hc1 _]; subst. destruct Hc1. unfold blocks. lia. }
  destruct (split_bs pre a post bs H1 H2 Ha H) as (b1 & b & b2 & -> & Hl & G1' & G2' & Hb & -> & ->). rewrite wsum_app by done. cbn [wsum].
  destruct (singles_row pre b1 H1 G1') as (_ & _ & ->). destruct (singles_row post b2 H2 G2') as (_ & _ & ->). rewrite Z.quot_same by lia. lia.
Qed.
Lemma in_grid_len dims pos : in_grid dims pos -> length pos = length dims.
Proof. intros H. apply Forall2_length in H. done. Qed.
Lemma globalToLocal_ok t g pos : distributed t g -> in_grid (axis_len <$> t_idx t) pos -> exists p l, globalToLocal t (row_id (axis_len <$> t_idx t) pos) = Ok (p, l) /\ holds (t_idx t) pos p l.
Proof.
  intros [Hg Hc Hs Hp Hz Hcy Hn] Hpos. destruct (G1_ok (zlen g) (t_idx t) pos 0 [] Hc Hpos) as (bs & bx & H1 & H2 & H3). rewrite Hz in H3 at 2. rewrite wsum_row in H3 by (done || by eapply bb_grid). rewrite <- Hn in H3.
  exists (row_id (blocks <$> t_idx t) bs), (row_id (box_dims bx) (offs pos bx)). split.
  - unfold globalToLocal, group. rewrite Hg. fold (G1 (zlen g)). rewrite H3. cbn [bind]. fold G2. change ([] ++ ?l) with l. rewrite (G2_ok _ _ _ _ H1); [done|]. unfold offs. rewrite zip_with_length. apply Forall2_length in H2. apply Forall3_length_lr in H1 as Hl1. apply in_grid_len in Hpos. rewrite fmap_length in Hpos. lia.
  - exists bx. split; [exists bs; done|]. split; [done|]. done.
Qed.

(** The number of elements of a process. *)
Definition N1 : Z * Z * Z -> Z * list Z -> res (Z * Z * Z) := fun '(nb, position, increment) '(np, ind) =>
    let increment := increment * np in
    ub_if increment =? 0 >>>
    let idim := Z.rem position increment in
    let position := Z.quot position increment in
    let* imin := rd ind idim in let* imax := rd ind (idim + 1) in
    Ok (nb * (imax - imin), position, increment).
Lemma single_look a : cuts a -> single a -> a @ 0 = Some 0 /\ a @ 1 = Some (axis_len a).
Proof. intros H1 H2. split; [apply H1|]. unfold single, blocks in H2. rewrite <- (cuts_last a H1). f_equal. lia. Qed.
Lemma N1_singles l nb pos inc : Forall cuts l -> Forall single l -> (inc = 1 \/ 1 <= inc /\ pos = 0) -> foldM N1 (rev (zip (blocks <$> l) l)) (nb, pos, inc) = Ok (nb * grid_nb (axis_len <$> l), pos, inc).
Proof.
  intros Hc Hs Hi. induction Hc as [|a l Ha Hc IH]; [cbn; do 3 f_equal; lia|]. inversion Hs as [|? ? Hs1 Hs2]; subst. rewrite fmap_cons. cbn [zip zip_with rev]. rewrite foldM_app', IH by done. cbn [bind foldM]. unfold N1. rewrite Hs1, Z.mul_1_r. replace (inc =? 0) with false by lia. cbn [ubif].
  destruct (single_look a Ha Hs1) as [L0 L1].
  assert (Z.rem pos inc = 0 /\ Z.quot pos inc = pos) as [-> ->]. { destruct Hi as [->|[? ->]]; [by rewrite Z.rem_1_r, Z.quot_1_r|]. rewrite Z.rem_0_l, Z.quot_0_l by lia. done. }
  rewrite (rd_ok _ _ _ L0). cbn [bind]. change (0 + 1) with 1. rewrite (rd_ok _ _ _ L1). cbn [bind]. cbn [grid_nb fmap list_fmap]. do 3 f_equal. cbn. lia.
Qed.
Lemma box_of_split t g p : distributed t g -> 0 <= p < zlen g -> exists pre a post lo hi bx, t_idx t = pre ++ a :: post /\ Forall single pre /\ Forall single post /\ blocks a = zlen g /\ a @ p = Some lo /\ a @ (p + 1) = Some hi /\
  box_of (t_idx t) p bx /\ grid_nb (box_dims bx) = grid_nb (axis_len <$> pre) * (hi - lo) * grid_nb (axis_len <$> post).
Proof.
  intros [Hg Hc Hs Hp Hz Hcy Hn] Hr. destruct Hs as (pre & a & post & E & S1 & S2). rewrite E in *. assert (Forall cuts pre /\ cuts a /\ Forall cuts post) as (C1 & Ca & C2). { apply Forall_app in Hc as [Hc1 Hc2]. inversion Hc2; subst. done. }
  rewrite fmap_app, fmap_cons, grid_nb_app in Hz. cbn [grid_nb] in Hz. rewrite (singles_nb pre S1), (singles_nb post S2) in Hz. unfold blocks in Hz.
  destruct (zlook_lt a p) as [lo Hlo]; [lia|]. destruct (zlook_lt a (p + 1)) as [hi Hhi]; [lia|].
  assert (forall l, Forall cuts l -> Forall single l -> block_box l ((fun _ => 0) <$> l) ((fun a => (0, axis_len a)) <$> l) /\ box_dims ((fun a => (0, axis_len a)) <$> l) = axis_len <$> l) as HS.
  { induction l as [|c l IH]; intros Hc1 Hs1; [split; [constructor|done]|]. inversion Hc1 as [|? ? Hc11 Hc12]; subst. inversion Hs1; subst. destruct (IH) as [I1 I2]; [done..|]. rewrite !fmap_cons. split; [apply bb_cons; split; [by apply single_look|done]|]. unfold box_dims in *. rewrite !fmap_cons, I2. cbn [fst snd]. by rewrite Z.sub_0_r. }
  destruct (HS pre C1 S1) as [B1 D1]. destruct (HS post C2 S2) as [B2 D2].
  exists pre, a, post, lo, hi, (((fun a => (0, axis_len a)) <$> pre) ++ (lo, hi) :: ((fun a => (0, axis_len a)) <$> post)). split; [done|]. split; [done|]. split; [done|]. split; [unfold blocks; lia|]. split; [done|]. split; [done|].
  assert (block_box (pre ++ a :: post) (((fun _ => 0) <$> pre) ++ p :: ((fun _ => 0) <$> post)) (((fun a => (0, axis_len a)) <$> pre) ++ (lo, hi) :: ((fun a => (0, axis_len a)) <$> post))) as Hbb.
  { unfold block_box in *. apply Forall3_app; [done|]. by constructor. }
  split.
  - eexists. split; [exact Hbb|]. rewrite fmap_app, fmap_cons. rewrite row_app by (by rewrite !fmap_length). cbn [row_id]. rewrite (singles_nb post S2).
    pose proof (bb_grid _ _ _ B1) as I1. pose proof (bb_grid _ _ _ B2) as I2. destruct (singles_row pre _ S1 I1) as (-> & _). destruct (singles_row post _ S2 I2) as (-> & _). lia.
  - unfold box_dims in *. rewrite fmap_app, fmap_cons, D1, D2, grid_nb_app. cbn [grid_nb fst snd]. lia.
Qed.
Lemma nbLocal_split t g p pre a post lo hi : distributed t g -> 0 <= p < zlen g -> t_idx t = pre ++ a :: post -> Forall single pre -> Forall single post -> blocks a = zlen g -> a @ p = Some lo -> a @ (p + 1) = Some hi ->
  getNbLocalElements t p = Ok (grid_nb (axis_len <$> pre) * (hi - lo) * grid_nb (axis_len <$> post)).
Proof.
  intros [Hg Hc _ Hp Hz Hcy Hn] Hr E S1 S2 Hba Hlo Hhi. unfold getNbLocalElements, group. rewrite Hg, Hp. fold N1. rewrite E in *. assert (Forall cuts pre /\ Forall cuts post) as (C1 & C2). { apply Forall_app in Hc as [Hc1 Hc2]. inversion Hc2; subst. done. }
  rewrite fmap_app, fmap_cons, zip_with_app by (by rewrite fmap_length). cbn [zip_with]. rewrite rev_app_distr. cbn [rev]. rewrite !foldM_app', N1_singles by (done || by left). cbn [bind foldM]. unfold N1 at 1. replace (1 * blocks a =? 0) with false by lia. cbn [ubif].
  rewrite Z.mul_1_l. rewrite Z.rem_small, Z.quot_small by lia. rewrite (rd_ok _ _ _ Hlo). cbn [bind]. rewrite (rd_ok _ _ _ Hhi). cbn [bind]. rewrite N1_singles by (done || (right; lia)). cbn [bind]. f_equal. lia.
Qed.
Lemma getNbLocal_ok t g p : distributed t g -> 0 <= p < zlen g -> exists bx, box_of (t_idx t) p bx /\ getNbLocalElements t p = Ok (grid_nb (box_dims bx)).
Proof.
  intros H Hp. destruct (box_of_split t g p H Hp) as (pre & a & post & lo & hi & bx & E & S1 & S2 & Hb & Hlo & Hhi & Hbx & Hn). exists bx. split; [done|]. rewrite Hn. by eapply nbLocal_split.
Qed.
Lemma box_of_fun idx p bx bx' : box_of idx p bx -> box_of idx p bx' -> bx = bx'.
Proof.
  intros (bs & H1 & E1) (bs' & H2 & E2). assert (bs = bs') as <-; [|by eapply bb_fun]. eapply row_inj; [by eapply bb_grid|by eapply bb_grid|congruence].
Qed.
Lemma box_of_range idx p bx : box_of idx p bx -> 0 <= p < grid_nb (blocks <$> idx).
Proof. intros (bs & H & ->). apply row_range. by eapply bb_grid. Qed.

(** From a process to the global number. *)
Definition L1 : Z * Z * Z * Z * Z * Z -> list Z -> res (Z * Z * Z * Z * Z * Z) := fun '(global, sub, loc, increment, proc_increment, local_increment) ind =>
    let axis_size := zlen ind - 1 in
    let* axis_nb_elem := rd ind axis_size in
    let increment := if axis_nb_elem =? 0 then 0 else Z.quot increment axis_nb_elem in
    ub_if axis_size =? 0 >>>
    let proc_increment := Z.quot proc_increment axis_size in
    ub_if proc_increment =? 0 >>>
    let proc_axis := Z.quot sub proc_increment in
    let sub := Z.rem sub proc_increment in
    let* hi := rd ind (proc_axis + 1) in let* lo := rd ind proc_axis in
    let local_axis_nb_elem := hi - lo in
    let local_increment := if local_axis_nb_elem =? 0 then 0 else Z.quot local_increment local_axis_nb_elem in
    let iaxis := (if local_increment =? 0 then 0 else Z.quot loc local_increment) + lo in
    Ok (global + increment * iaxis, sub, (if local_increment =? 0 then 0 else Z.rem loc local_increment), increment, proc_increment, local_increment).
Lemma L1_ok idx bs bx pos gl : Forall cuts idx -> block_box idx bs bx -> in_box bx pos ->
  foldM L1 idx (gl, row_id (blocks <$> idx) bs, row_id (box_dims bx) (offs pos bx), grid_nb (axis_len <$> idx), grid_nb (blocks <$> idx), grid_nb (box_dims bx)) = Ok (gl + row_id (axis_len <$> idx) pos, 0, 0, 1, 1, 1).
Proof.
  intros Hc H. revert pos gl. induction H as [|a b [lo hi] idx bs bx [H1 H2] H IH]; intros pos gl Hpos.
  - inversion Hpos; subst. cbn. do 6 f_equal. lia.
  - inversion Hc as [|? ? Ha Hc']; subst. inversion Hpos as [|? x ? ps Hx Hps]; subst. simpl in Hx, H1, H2. pose proof (bb_box (a :: idx) (b :: bs) ((lo, hi) :: bx) Hc) as Hb.
    assert (block_box (a :: idx) (b :: bs) ((lo, hi) :: bx)) as Hbb by (by apply bb_cons). specialize (Hb Hbb). pose proof (bb_grid _ _ _ Hbb) as Hbg. pose proof (offs_in _ _ Hpos) as Hof. unfold box_dims in *. rewrite !fmap_cons in *. inversion Hb as [|? ? ? ? Hb1 Hb2]; subst. simpl in Hb1.
    change (offs (x :: ps) ((lo, hi) :: bx)) with (x - lo :: offs ps bx) in *. cbn [fst snd] in *. destruct (row_step _ _ _ _ Hbg) as (Q1 & Q2 & Q3). destruct (row_step _ _ _ _ Hof) as (R1 & R2 & R3).
    assert (1 <= blocks a) by (destruct Ha; unfold blocks; lia). pose proof (lens_nonneg _ Hc') as Hnn. pose proof (grid_nb_nonneg _ Hnn).
    cbn [foldM]. unfold L1 at 1. rewrite (rd_ok _ _ _ (cuts_last a Ha)). cbn [bind]. replace (axis_len a =? 0) with false by lia. change (zlen a - 1) with (blocks a). replace (blocks a =? 0) with false by lia. cbn [ubif].
    rewrite !quot_head by lia. replace (grid_nb (blocks <$> idx) =? 0) with false by lia. cbn [ubif]. rewrite Q2, Q3. rewrite (rd_ok _ _ _ H2). cbn [bind]. rewrite (rd_ok _ _ _ H1). cbn [bind]. replace (hi - lo =? 0) with false by lia.
    rewrite !quot_head by lia. replace (grid_nb _ =? 0) with false by lia. rewrite R2, R3. rewrite IH by done. cbn [row_id]. do 6 f_equal. lia.
Qed.
Lemma localToGlobal_ok t g pos p l r : distributed t g -> holds (t_idx t) pos p l -> getNbLocalElements t r = getNbLocalElements t p -> localToGlobal t r (p, l) = Ok (row_id (axis_len <$> t_idx t) pos).
Proof.
  intros H (bx & Hbx & Hin & ->) Hr. pose proof H as [Hg Hc Hs Hp Hz Hcy Hn]. pose proof (box_of_range _ _ _ Hbx) as Hrange. destruct (getNbLocal_ok t g p H) as (bx' & Hbx' & Hnb); [lia|]. pose proof (box_of_fun _ _ _ _ Hbx Hbx') as <-.
  unfold localToGlobal, group. rewrite Hg, Hr, Hnb. cbn [bind]. fold L1. rewrite Hz, Hn. destruct Hbx as (bs & Hbb & ->). fold (offs pos bx). rewrite (L1_ok _ _ _ _ 0 Hc Hbb Hin). done.
Qed.
Lemma holds_fun idx pos p l p' l' : Forall cuts idx -> holds idx pos p l -> holds idx pos p' l' -> p = p' /\ l = l'.
Proof.
  intros Hc (bx & (bs & H1 & E1) & H2 & H3) (bx' & (bs' & H1' & E1') & H2' & H3'). assert (bs = bs') as <- by (by eapply bb_unique). assert (bx = bx') as <- by (by eapply bb_fun). split; congruence.
Qed.
Lemma holds_inj idx pos pos' p l : holds idx pos p l -> holds idx pos' p l -> pos = pos'.
Proof.
  intros (bx & B & H2 & H3) (bx' & B' & H2' & H3'). pose proof (box_of_fun _ _ _ _ B B') as <-. eapply offs_inj; [done|done|]. eapply row_inj; [by apply offs_in|by apply offs_in|]. unfold offs. congruence.
Qed.
Lemma holds_exists idx p bx l : Forall cuts idx -> box_of idx p bx -> 0 <= l < grid_nb (box_dims bx) -> exists pos, holds idx pos p l /\ in_grid (axis_len <$> idx) pos.
Proof.
  intros Hc B Hl. destruct (row_onto (box_dims bx) l) as (q & Hq & ->); [|done|].
  - destruct B as (bs & B & _). apply box_dims_nonneg. eapply box_in_le. by eapply bb_box.
  - destruct (offs_onto _ _ Hq) as (pos & Hpos & ->). exists pos. split; [exists bx; done|]. destruct B as (bs & B & _). eapply in_box_grid; [by eapply bb_box|done].
Qed.
