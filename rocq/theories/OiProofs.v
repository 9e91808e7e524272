(** Proofs: cells turned over in place. *)
From Coq Require Import QArith ZifyBool ZifyNat.
From Verif Require Import Base DataArray IndexSpec FillLib IndexProofs3 IndexProofs4 CellTable CellModel CellSpec CellProofs CellProofs4 CellProofs5 UmModel UmSpec UmProofs UmProofs2 UmProofs10 UcModel TyModel TySpec TyProofs2 TyExamples DgModel DgProofs5 SxProofs SxProofs3 SxProofs4 OiModel OiSpec.
Local Open Scope Z_scope.

Lemma on_cell (cells : list cell) conn connI i (c : cell) (op : list Z -> res (list Z)) l' : skyline (pk <$> cells) conn connI -> cells @ i = Some c -> op c.2 = Ok l' -> zlen l' = zlen c.2 ->
  exists conn', onCell connI conn i op = Ok conn' /\ skyline (pk <$> zset cells i (c.1, l')) conn' connI.
Proof.
  intros Hsky Hc Hop Hl. destruct (read_cell cells conn connI Hsky i c Hc) as (a & E1 & E2 & E3 & E4 & _ & _ & Ha & Hb). unfold onCell. rewrite E1. cbn [bind]. rewrite E2. cbn [bind]. replace (a + 1 + zlen c.2 - a - 1) with (zlen c.2) by lia. rewrite E4 by (pose proof (zlen_nonneg c.2); lia).
  replace (take (Z.to_nat (zlen c.2)) c.2) with c.2 by (symmetry; apply take_ge; unfold zlen; lia). cbn [bind]. rewrite Hop. cbn [bind]. unfold wrn, ubif. rewrite Hl. replace ((a + 1 <? 0) || (zlen conn <? a + 1 + zlen c.2)) with false by lia. eexists. split; [reflexivity|].
  destruct (split_at cells i c Hc) as (pre & post & -> & Hpre). destruct (sky_eq _ _ _ Hsky) as [-> ->].
  assert (a = zlen (concat (pk <$> pre))) as ->.
  { assert (rd (psums (lens (pre ++ c :: post))) i = Ok (zlen (concat (pk <$> pre)))) as E.
    { apply rd_ok. destruct Hsky as [_ [_ Hp]]. unfold lens. rewrite Hp by (rewrite !zlen_fmap, zlen_app, zlen_cons; pose proof (zlen_nonneg post); pose proof (zlen_nonneg pre); lia). f_equal. rewrite pk_concat, <- fmap_take, <- fmap_take. unfold lens. do 3 f_equal. replace (Z.to_nat i) with (length pre) by (unfold zlen in Hpre; lia). apply take_app. }
    rewrite E in E1. by injection E1 as ->. }
  assert (zset (pre ++ c :: post) i (c.1, l') = pre ++ (c.1, l') :: post) as ->.
  { unfold zset. replace (Z.to_nat i) with (length pre + 0)%nat by (unfold zlen in Hpre; lia). by rewrite insert_app_r. }
  assert (lens (pre ++ c :: post) = lens (pre ++ (c.1, l') :: post)) as -> by (unfold lens; rewrite !fmap_app, !fmap_cons; do 2 f_equal; rewrite !zlen_pk; cbn [snd]; lia).
  match goal with |- skyline _ ?x _ => assert (x = concat (pk <$> (pre ++ (c.1, l') :: post))) as ->; [|apply (skyline_psums (pk <$> (pre ++ (c.1, l') :: post)))] end.
  rewrite !fmap_app, !fmap_cons, !concat_app. cbn [concat]. set (D := concat (pk <$> pre)). set (R := concat (pk <$> post)). unfold pk. cbn [fst snd app].
  replace (Z.to_nat (zlen D + 1)) with (length (D ++ [c.1])) by (rewrite app_length; unfold zlen; cbn [length]; lia). replace (Z.to_nat (zlen D + 1 + zlen c.2)) with (length (D ++ c.1 :: c.2)) by (rewrite app_length; unfold zlen; cbn [length]; lia).
  replace (D ++ c.1 :: c.2 ++ R) with ((D ++ [c.1]) ++ c.2 ++ R) at 1 by (by rewrite <- app_assoc). replace (D ++ c.1 :: c.2 ++ R) with ((D ++ c.1 :: c.2) ++ R) at 1 by (by rewrite <- app_assoc). rewrite take_app, drop_app, <- app_assoc. done.
Qed.

(** A loop over ranks, each cell once. *)
Lemma on_cells connI (f : list Z -> Z -> res (list Z)) (inv : cell -> cell) (P : cell -> Prop) :
  (forall cells conn i c, skyline (pk <$> cells) conn connI -> cells @ i = Some c -> P c -> exists conn', f conn i = Ok conn' /\ skyline (pk <$> zset cells i (inv c)) conn' connI) ->
  forall ids (cells : list cell) conn, NoDup ids -> skyline (pk <$> cells) conn connI -> (forall i, i ∈ ids -> exists c, cells @ i = Some c /\ P c) ->
  exists conn' cells', foldM f ids conn = Ok conn' /\ skyline (pk <$> cells') conn' connI /\ zlen cells' = zlen cells /\ forall i c, cells @ i = Some c -> cells' @ i = Some (if bool_decide (i ∈ ids) then inv c else c).
Proof.
  intros Hf. induction ids as [|id ids IH]; intros cells conn Hn Hs Hi.
  { exists conn, cells. split; [done|]. split; [done|]. split; [done|]. intros i c Hc. rewrite bool_decide_false by apply not_elem_of_nil. done. }
  apply NoDup_cons in Hn as [Hn1 Hn2]. destruct (Hi id ltac:(left)) as (c & Hc & Hp). destruct (Hf cells conn id c Hs Hc Hp) as (conn1 & E1 & Hs1). pose proof (zlook_Some_lt _ _ _ Hc) as Hid.
  destruct (IH (zset cells id (inv c)) conn1 Hn2 Hs1) as (conn' & cells' & E & Hs' & Hl & Hv).
  { intros i Hin. destruct (Hi i ltac:(by right)) as (c2 & Hc2 & Hp2). exists c2. split; [|done]. rewrite zlook_zset by lia. destruct (Z.eqb_spec i id) as [->|]; [done|done]. }
  exists conn', cells'. cbn [foldM]. rewrite E1. cbn [bind]. split; [done|]. split; [done|]. split; [by rewrite Hl, zlen_zset|]. intros i c2 Hc2. destruct (decide (i = id)) as [->|Hne].
  - rewrite Hc in Hc2. injection Hc2 as <-. rewrite (Hv id (inv c)) by (rewrite zlook_zset by lia; by rewrite Z.eqb_refl). rewrite bool_decide_false by done. by rewrite bool_decide_true by left.
  - rewrite (Hv i c2) by (rewrite zlook_zset by lia; by replace (i =? id) with false by lia). do 2 f_equal. assert (bool_decide (i ∈ ids) = bool_decide (i ∈ id :: ids)) as -> by (apply bool_decide_ext; set_solver). done.
Qed.
Lemma as_fmap (cells cells' : list cell) (g : Z -> cell -> cell) (h : cell -> cell) : zlen cells' = zlen cells -> (forall i c, cells @ i = Some c -> cells' @ i = Some (g i c)) -> (forall i c, cells @ i = Some c -> g i c = h c) -> cells' = h <$> cells.
Proof.
  intros Hl H1 H2. apply zlook_ext. intros i. rewrite zlook_fmap. destruct (cells @ i) as [c|] eqn:E; cbn.
  - rewrite (H1 _ _ E). by rewrite (H2 _ _ E).
  - apply zlook_None in E. apply zlook_None. lia.
Qed.

(** invertOrientationOfAllCells *)
Definition inv (c : cell) : cell := (c.1, match invertOrientation c.1 c.2 with Ok l => l | _ => [] end).
Definition inv_ok (dim : Z) (c : cell) : Prop := exists k l', GetCellModel c.1 = Ok k /\ cm_dim k = dim /\ invertOrientation c.1 c.2 = Ok l' /\ zlen l' = zlen c.2.
Lemma ranks_elem l t i : i ∈ ranks_of l t <-> l @ i = Some t.
Proof.
  unfold ranks_of. rewrite elem_of_list_In, List.filter_In, <- elem_of_list_In, elem_of_seqZ, bool_decide_eq_true. split; [by intros [_ H]|]. intros H. split; [|done]. pose proof (zlook_Some_lt _ _ _ H). lia.
Qed.
Lemma ranks_nodup l t : NoDup (ranks_of l t).
Proof. unfold ranks_of. apply NoDup_ListNoDup, List.NoDup_filter, NoDup_ListNoDup, NoDup_seqZ. Qed.
Lemma invert_types dim co ty connI ts : 0 <= dim -> NoDup ts -> forall (cells : list cell) conn, skyline (pk <$> cells) conn connI -> (forall t, t ∈ ts -> exists c, c ∈ cells /\ c.1 = t) -> (forall c, c ∈ cells -> c.1 ∈ ts -> inv_ok dim c) ->
  exists conn', foldM (fun conn gt => let* cwt := giveCellsWithType (UM dim co (Some conn) (Some connI) ty) gt in foldM (fun conn i => onCell connI conn i (invertOrientation gt)) cwt conn) ts conn = Ok conn' /\
    skyline (pk <$> ((fun c => if bool_decide (c.1 ∈ ts) then inv c else c) <$> cells)) conn' connI.
Proof.
  intros Hd. induction ts as [|t ts IH]; intros Hn cells conn Hs Hex Hk.
  { exists conn. split; [done|]. match goal with |- skyline (pk <$> ?x) _ _ => assert (x = cells) as ->; [|done] end. rewrite <- (list_fmap_id cells) at 2. apply Forall_fmap_ext_1, Forall_forall. intros c _. rewrite bool_decide_false by apply not_elem_of_nil. done. }
  apply NoDup_cons in Hn as [Hn1 Hn2]. destruct (Hex t ltac:(left)) as (c0 & Hc0 & Ht0). destruct (Hk c0 Hc0) as (k & _ & Hm & Hkd & _); [rewrite Ht0; left|]. rewrite Ht0 in Hm. cbn [foldM].
  assert (stores (UM dim co (Some conn) (Some connI) ty) cells) as Hst by (exists conn, connI; done). rewrite (give_plain _ cells t k Hst Hm Hd). cbn [um_dim]. rewrite Hkd, Z.eqb_refl. cbn [bind].
  destruct (on_cells connI (fun conn i => onCell connI conn i (invertOrientation t)) inv (fun c => c.1 = t /\ inv_ok dim c)) with (ids := ranks_of (kinds cells) t) (cells := cells) (conn := conn) as (conn1 & cells1 & E1 & Hs1 & Hl1 & Hv1).
  { intros cs cn i c Hsk Hc [Hct (k' & l' & _ & _ & Ho & Hlen)]. rewrite Hct in Ho. destruct (on_cell cs cn connI i c (invertOrientation t) l' Hsk Hc Ho Hlen) as (conn' & E & H). exists conn'. split; [done|]. unfold inv. by rewrite Hct, Ho, <- Hct. }
  { apply ranks_nodup. } { done. }
  { intros i Hi. apply ranks_elem in Hi. unfold kinds in Hi. rewrite zlook_fmap in Hi. destruct (cells @ i) as [c|] eqn:Ec; [|done]. cbn in Hi. injection Hi as Hi. exists c. split; [done|]. split; [done|]. apply Hk; [by eapply zlook_elem|rewrite Hi; left]. }
  rewrite E1. cbn [bind].
  assert (cells1 = (fun c : cell => if c.1 =? t then inv c else c) <$> cells) as ->.
  { eapply as_fmap; [done|exact Hv1|]. intros i c Hc. cbn. assert (bool_decide (i ∈ ranks_of (kinds cells) t) = (c.1 =? t)) as ->; [|done]. apply Bool.eq_true_iff_eq. rewrite bool_decide_eq_true, ranks_elem, Z.eqb_eq. unfold kinds. rewrite zlook_fmap, Hc. cbn. split; [by intros [= ->]|by intros ->]. }
  destruct (IH Hn2 _ conn1 Hs1) as (conn' & E & Hs').
  - intros t' Ht'. destruct (Hex t' ltac:(by right)) as (c & Hc & Hct). exists c. split; [|done]. apply elem_of_list_fmap. exists c. split; [|done]. destruct (Z.eqb_spec c.1 t) as [E|E]; [exfalso; apply Hn1; by rewrite <- E, Hct|done].
  - intros c Hc Hin. apply elem_of_list_fmap in Hc as (c2 & -> & Hc2). destruct (Z.eqb_spec c2.1 t) as [E|E]; [exfalso; unfold inv in Hin; cbn in Hin; by rewrite E in Hin|]. apply Hk; [done|by right].
  - exists conn'. split; [done|]. match type of Hs' with skyline (pk <$> ?x) _ _ => match goal with |- skyline (pk <$> ?y) _ _ => assert (x = y) as <-; [|done] end end. rewrite <- list_fmap_compose.
    apply Forall_fmap_ext_1, Forall_forall. intros c _. unfold compose. destruct (Z.eqb_spec c.1 t) as [E'|E'].
    + rewrite bool_decide_false by (unfold inv; cbn; by rewrite E'). rewrite bool_decide_true by (rewrite E'; left). done.
    + assert (bool_decide (c.1 ∈ ts) = bool_decide (c.1 ∈ t :: ts)) as -> by (apply bool_decide_ext; set_solver). done.
Qed.

Lemma asc_nodup l : ascending l -> NoDup l.
Proof. induction l as [|x l IH]; intros H; [constructor|]. destruct H as [H1 H2]. apply NoDup_cons. split; [|by apply IH]. intros Hx. specialize (H1 x Hx). lia. Qed.
Lemma invert_mesh m cells : 0 <= um_dim m -> stores m cells -> typed m cells -> (forall c, c ∈ cells -> inv_ok (um_dim m) c) ->
  exists m', invertOrientationOfAllCells m = Ok m' /\ stores m' (inv <$> cells) /\ um_dim m' = um_dim m /\ um_coords m' = um_coords m /\ um_types m' = um_types m /\ um_connI m' = um_connI m.
Proof.
  intros Hd Hs [Hasc Hty] Hk. destruct (stores_get m cells Hs) as (conn & connI & Ec & EI & Hsky & _). unfold invertOrientationOfAllCells, checkConnectivityFullyDefined. rewrite Ec, EI.
  destruct (invert_types (um_dim m) (um_coords m) (um_types m) connI (um_types m) Hd (asc_nodup _ Hasc) cells conn Hsky) as (conn' & E & Hs'); [intros t Ht; by apply Hty|intros c Hc _; by apply Hk|]. rewrite E. cbn [bind]. eexists. split; [reflexivity|]. split; [|done].
  exists conn', connI. split; [done|]. split; [done|]. match type of Hs' with skyline (pk <$> ?x) _ _ => assert (x = inv <$> cells) as <-; [|done] end.
  apply Forall_fmap_ext_1, Forall_forall. intros c Hc. rewrite bool_decide_true; [done|]. apply Hty. by exists c.
Qed.
