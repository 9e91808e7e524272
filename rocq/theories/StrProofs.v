From Verif Require Import Base DataArray ArrLib RenumProofs IndexProofs5 SearchSpec SkyModel SkyProofs SkyProofs8 StrModel StrSpec.
From Coq Require Import ZifyBool ZifyNat.

Lemma grid_nb_app a b : grid_nb (a ++ b) = grid_nb a * grid_nb b.
Proof. induction a as [|x a IH]; simpl; [lia|]. rewrite IH. lia. Qed.
Lemma grid_nb_pos st : Forall (Z.lt 0) st -> 0 < grid_nb st.
Proof. induction 1; simpl; [lia|nia]. Qed.
Lemma grid_nb_nonneg st : Forall (Z.le 0) st -> 0 <= grid_nb st.
Proof. induction 1; simpl; [lia|nia]. Qed.
Lemma grid_nb_foldl a st : foldl Z.mul a st = a * grid_nb st.
Proof. revert a. induction st as [|n st IH]; intros a; simpl; [lia|]. rewrite IH. lia. Qed.
Lemma in_grid_pos st pos : in_grid st pos -> Forall (Z.lt 0) st.
Proof. induction 1; constructor; [lia|done]. Qed.
Lemma grid_id_range st pos : in_grid st pos -> 0 <= grid_id st pos < grid_nb st.
Proof. induction 1 as [|n p st pos H _ IH]; simpl; [lia|]. nia. Qed.
Lemma grid_id_inj st p q : in_grid st p -> in_grid st q -> grid_id st p = grid_id st q -> p = q.
Proof.
  intros Hp. revert q. induction Hp as [|n x st p Hx _ IH]; intros q Hq He; inversion Hq as [|? y ? q' Hy Hq']; subst; [done|]. simpl in He.
  assert (x = y) as -> by (apply (f_equal (fun z => z mod n)) in He; rewrite !(Z.mul_comm n), !Z.mod_add, !Z.mod_small in He by lia; done).
  f_equal. apply IH; [done|]. nia.
Qed.

Definition is_split (st spt : list Z) : Prop := zlen spt = zlen st /\ forall i, 0 <= i < zlen st -> spt @ i = Some (grid_nb (take (Z.to_nat i) st)).
Lemma take_snoc_z {A} (l : list A) i x : l @ i = Some x -> take (Z.to_nat (i + 1)) l = take (Z.to_nat i) l ++ [x].
Proof. intros H. pose proof (zlook_Some_lt _ _ _ H). replace (Z.to_nat (i + 1)) with (S (Z.to_nat i)) by lia. apply take_S_r. rewrite <- H. symmetry. apply zlook_to_nat. lia. Qed.
Lemma split_ok st : exists spt, GetSplitVectFromStruct st = Ok spt /\ is_split st spt.
Proof.
  apply wp_ok. unfold GetSplitVectFromStruct. pose proof (zlen_nonneg st).
  apply (wp_forZ (fun l r => zlen r = zlen st /\ forall i, zlen st - l <= i < zlen st -> r @ i = Some (grid_nb (take (Z.to_nat i) st)))).
  - done.
  - split; [rewrite zlen_replicate; done|lia].
  - intros l r Hl (Hr & Hs). wstep. set (m := zlen st - l - 1).
    apply (wp_forZ (fun p val => val = grid_nb (take (Z.to_nat p) st))); [lia|done| |].
    + intros p val Hp ->. destruct (zlook_lt st p) as [x Hx]; [lia|]. rewrite (rd_ok _ _ x Hx). cbn [bind wp]. rewrite (take_snoc_z _ _ _ Hx), grid_nb_app. simpl. lia.
    + intros val ->. rewrite wr_ok by lia. cbn [wp]. split; [by rewrite zlen_zset|]. intros i Hi. rewrite zlook_zset by lia. destruct (i =? m) eqn:E; [by assert (i = m) as -> by lia|]. apply Hs. lia.
  - intros r (Hr & Hs). cbn [wp]. split; [done|]. intros i Hi. apply Hs. lia.
Qed.
Lemma take_drop_cons {A} (l : list A) i x : l @ i = Some x -> drop (Z.to_nat i) l = x :: drop (Z.to_nat (i + 1)) l.
Proof. intros H. pose proof (zlook_Some_lt _ _ _ H). replace (Z.to_nat (i + 1)) with (S (Z.to_nat i)) by lia. apply drop_S. rewrite <- H. symmetry. apply zlook_to_nat. lia. Qed.
Lemma getpos_ok st spt id r : is_split st spt -> Forall (Z.lt 0) st -> 0 <= id < grid_nb st -> zlen r = zlen st ->
  exists pos, GetPosFromId id (zlen st) spt r = Ok pos /\ in_grid st pos /\ grid_id st pos = id.
Proof.
  intros [Hsl Hs] Hp Hid Hr. apply wp_ok. unfold GetPosFromId. wstep. pose proof (zlen_nonneg st).
  apply (wp_forZ (fun t '(work, r) => exists suf, zlen r = zlen st /\ drop (Z.to_nat (zlen st - t)) r = suf /\ 0 <= work < grid_nb (take (Z.to_nat (zlen st - t)) st) /\
    in_grid (drop (Z.to_nat (zlen st - t)) st) suf /\ id = work + grid_nb (take (Z.to_nat (zlen st - t)) st) * grid_id (drop (Z.to_nat (zlen st - t)) st) suf)).
  - done.
  - rewrite Z.sub_0_r. replace (Z.to_nat (zlen st)) with (length st) by (unfold zlen; lia). rewrite firstn_all, drop_all. exists []. split; [done|].
    rewrite drop_ge by (unfold zlen in Hr; lia). split; [done|]. split; [done|]. split; [constructor|]. simpl. lia.
  - intros t [work r1] Ht (suf & Hr1 & Hsuf & Hw & Hg & He). set (m := zlen st - t) in *. set (i := zlen st - 1 - t). assert (m = i + 1) as Hm by lia.
    destruct (zlook_lt st i) as [n Hn]; [lia|]. rewrite (rd_ok _ _ _ (Hs i ltac:(lia))). cbn [bind]. set (s := grid_nb (take (Z.to_nat i) st)).
    assert (0 < s) as Hspos. { apply grid_nb_pos. apply Forall_take. done. }
    replace (s =? 0) with false by lia. cbn [ubif]. rewrite wr_ok by lia. cbn [bind wp].
    assert (0 < n) as Hnpos. { rewrite Forall_forall in Hp. apply Hp. eapply zlook_elem; done. }
    rewrite Hm, (take_snoc_z _ _ _ Hn), grid_nb_app in Hw, He. fold s in Hw, He. simpl in Hw, He. rewrite Z.quot_div_nonneg, Z.rem_mod_nonneg by lia.
    exists (work / s :: suf). rewrite zlen_zset. split; [done|]. replace (zlen st - (t + 1)) with i by lia. fold s.
    pose proof (Z.div_mod work s ltac:(lia)) as Hdm. pose proof (Z.mod_pos_bound work s Hspos). assert (0 <= work / s < n) by (split; [apply Z.div_pos; lia|apply Z.div_lt_upper_bound; nia]).
    split.
    + assert (zset r1 i (work / s) @ i = Some (work / s)) as Hz by (rewrite zlook_zset by lia; by rewrite Z.eqb_refl). rewrite (take_drop_cons _ _ _ Hz). f_equal. rewrite <- Hsuf, Hm. unfold zset. apply drop_insert_gt. lia.
    + split; [done|]. rewrite (take_drop_cons _ _ _ Hn). split; [constructor; [done|]; rewrite <- Hm; done|]. cbn [grid_id]. rewrite <- Hm. rewrite <- Hm in He. rewrite He. rewrite Hdm at 1. ring.
  - intros [work r1] (suf & Hr1 & Hsuf & Hw & Hg & He). rewrite Z.sub_diag in Hsuf, Hw, Hg, He. change (Z.to_nat 0) with 0%nat in *. rewrite drop_0 in Hsuf, Hg, He. rewrite take_0 in Hw, He. cbn [grid_nb] in Hw, He. cbn [wp]. subst suf. split; [done|]. lia.
Qed.

Lemma wrap_id z : -2147483648 <= z < 2147483648 -> wrap32 z = z.
Proof. intros H. unfold wrap32. rewrite Z.mod_small by lia. lia. Qed.
Lemma acc_mul a st : 0 < a -> Forall (Z.lt 0) st -> a * grid_nb st < 2147483648 -> accInt Z.mul a st = a * grid_nb st.
Proof.
  intros Ha Hp. revert a Ha. induction Hp as [|n st Hn Hp IH]; intros a Ha Hb; [simpl; unfold accInt; simpl; lia|]. unfold accInt in *. cbn [foldl grid_nb] in *. pose proof (grid_nb_pos st Hp).
  rewrite wrap_id by nia. rewrite IH by nia. lia.
Qed.
Lemma locate_ok st id : Forall (Z.lt 0) st -> grid_nb st < 2147483648 -> 0 <= id < grid_nb st -> exists pos, locate (zlen st) st id = Ok pos /\ in_grid st pos /\ grid_id st pos = id.
Proof.
  intros Hp Hb Hid. unfold locate. rewrite acc_mul by (try done; lia). replace ((id <? 0) || _) with false by lia. cbn [ifthrow]. destruct (split_ok st) as (spt & -> & Hs). cbn [bind].
  apply getpos_ok; try done. rewrite zlen_replicate. pose proof (zlen_nonneg st). lia.
Qed.
Lemma locate_throw dim st id : Forall (Z.lt 0) st -> grid_nb st < 2147483648 -> ~ 0 <= id < grid_nb st -> locate dim st id = Throw.
Proof. intros Hp Hb Hid. unfold locate. rewrite acc_mul by (try done; lia). replace ((id <? 0) || _) with true by lia. done. Qed.
Lemma wp_length3 {A} (l : list A) : 1 <= zlen l <= 3 -> (exists a, l = [a]) \/ (exists a b, l = [a; b]) \/ (exists a b c, l = [a; b; c]).
Proof. destruct l as [|a [|b [|c [|d l]]]]; rewrite ?zlen_cons, ?zlen_nil; intros H; [lia|left|right; left|right; right|pose proof (zlen_nonneg l); lia]; eauto. Qed.
Lemma idFromPos_ok st pos i j k : dim_ok st -> grid_nb st < 2147483648 -> in_grid st pos -> take (length st) [i; j; k] = pos -> idFromPos (zlen st) st i j k = Ok (grid_id st pos).
Proof.
  intros Hd Hb Hg Ht. pose proof (grid_id_range st pos Hg) as Hr. pose proof (in_grid_pos _ _ Hg) as Hp.
  unfold idFromPos. destruct (split_ok st) as (spt & -> & Hs1 & Hs). cbn [bind].
  destruct (wp_length3 st Hd) as [(a & ->)|[(a & b & ->)|(a & b & c & ->)]]; simpl in Ht; subst pos.
  - destruct spt as [|x [|y spt]]; unfold zlen in Hs1; simpl in Hs1; try lia.
    pose proof (Hs 0 ltac:(done)) as E0. change (Some x = Some 1) in E0. assert (x = 1) as -> by congruence. cbn [grid_id grid_nb take] in *. change (Z.to_nat 0) with 0%nat. cbn [take grid_nb].
    match goal with |- bind ?x _ = _ => let y := eval cbv in x in change x with y end. cbn [bind].
    match goal with |- bind ?x _ = _ => let y := eval cbv -[Z.mul] in x in change x with y end. cbn [bind]. change (take _ _) with [i * 1].
    unfold accInt. cbn [foldl]. inversion Hg; subst. rewrite wrap_id by lia. f_equal. lia.
  - destruct spt as [|x [|y [|z spt]]]; unfold zlen in Hs1; simpl in Hs1; try lia.
    pose proof (Hs 0 ltac:(done)) as E0. change (Some x = Some 1) in E0. assert (x = 1) as -> by congruence. pose proof (Hs 1 ltac:(done)) as E1. change (Some y = Some (a * 1)) in E1. assert (y = a * 1) as -> by congruence. change (Z.to_nat 0) with 0%nat. change (Z.to_nat 1) with 1%nat. cbn [grid_id grid_nb take] in *.
    match goal with |- bind ?x _ = _ => let y := eval cbv -[Z.mul] in x in change x with y end. cbn [bind].
    match goal with |- bind ?x _ = _ => let y := eval cbv -[Z.mul] in x in change x with y end. cbn [bind]. change (take _ _) with [i * 1; j * (a * 1)].
    unfold accInt. cbn [foldl]. inversion Hg as [|???? H1 H2]; subst. inversion H2 as [|???? H3 H4]; subst. cbn beta in H1, H3.
    assert (0 <= a * j) by nia. assert (a * 1 <= a * b) by nia. rewrite (wrap_id (0 + i * 1)) by lia. rewrite wrap_id by lia. f_equal. lia.
  - destruct spt as [|x [|y [|z [|w spt]]]]; unfold zlen in Hs1; simpl in Hs1; try lia.
    pose proof (Hs 0 ltac:(done)) as E0. change (Some x = Some 1) in E0. assert (x = 1) as -> by congruence. pose proof (Hs 1 ltac:(done)) as E1. change (Some y = Some (a * 1)) in E1. assert (y = a * 1) as -> by congruence. pose proof (Hs 2 ltac:(done)) as E2. change (Some z = Some (a * (b * 1))) in E2. assert (z = a * (b * 1)) as -> by congruence.
    change (Z.to_nat 0) with 0%nat. change (Z.to_nat 1) with 1%nat. change (Z.to_nat 2) with 2%nat. cbn [grid_id grid_nb take] in *.
    match goal with |- bind ?x _ = _ => let y := eval cbv -[Z.mul] in x in change x with y end. cbn [bind].
    match goal with |- bind ?x _ = _ => let y := eval cbv -[Z.mul] in x in change x with y end. cbn [bind]. change (take _ _) with [i * 1; j * (a * 1); k * (a * (b * 1))].
    unfold accInt. cbn [foldl]. inversion Hg as [|???? H1 H2]; subst. inversion H2 as [|???? H3 H4]; subst. inversion H4 as [|???? H5 H6]; subst. cbn beta in H1, H3, H5.
    assert (0 <= a * j) by nia. assert (0 <= a * (b * k)) by nia. rewrite (wrap_id (0 + i * 1)) by lia. rewrite (wrap_id (_ + j * (a * 1))) by lia. rewrite wrap_id by lia. f_equal. lia.
Qed.

Lemma cgs_eq ngs : getCellGridStructure ngs = cells_st ngs.
Proof. done. Qed.
Lemma meshDim_from a ngs : Forall (Z.lt 1) ngs -> foldM (fun ret n => throw_if n <=? 0 >>> Ok (if 1 <? n then ret + 1 else ret)) ngs a = Ok (a + zlen ngs).
Proof.
  intros H. revert a. induction H as [|n ngs Hn _ IH]; intros a; [cbn; f_equal; rewrite zlen_nil; lia|]. cbn [foldM]. replace (n <=? 0) with false by lia. cbn [ifthrow bind]. replace (1 <? n) with true by lia. rewrite IH, zlen_cons. f_equal. lia.
Qed.
Lemma meshDim_ok ngs : Forall (Z.lt 1) ngs -> getMeshDimension ngs = Ok (zlen (cells_st ngs)).
Proof. intros H. unfold getMeshDimension. rewrite meshDim_from by done. unfold cells_st. rewrite zlen_fmap. done. Qed.
Lemma cells_pos ngs : Forall (Z.lt 1) ngs -> Forall (Z.lt 0) (cells_st ngs).
Proof. induction 1; constructor; [lia|done]. Qed.
Lemma nb_cells_ok ngs : Forall (Z.lt 1) ngs -> ngs <> [] -> getNumberOfCells ngs = Ok (grid_nb (cells_st ngs)).
Proof.
  intros H Hne. unfold getNumberOfCells. assert (forall a c, ngs <> [] \/ c = true -> foldM (fun '(ret, c) elt => throw_if elt <=? 0 >>> Ok (if 1 <? elt then (ret * (elt - 1), true) else (ret, c))) ngs (a, c) = Ok (a * grid_nb (cells_st ngs), true)) as Hf.
  { clear Hne. induction H as [|n ngs Hn _ IH]; intros a c Hc; [destruct Hc as [| ->]; [done|]; cbn; do 2 f_equal; lia|]. cbn [foldM]. replace (n <=? 0) with false by lia. cbn [ifthrow bind]. replace (1 <? n) with true by lia.
    rewrite IH by (by right). unfold cells_st. rewrite fmap_cons. cbn [grid_nb]. do 2 f_equal. lia. }
  rewrite Hf by (by left). cbn [bind]. f_equal. lia.
Qed.
Lemma nb_nodes_ok ngs : getNumberOfNodes ngs = grid_nb ngs.
Proof. unfold getNumberOfNodes. rewrite grid_nb_foldl. lia. Qed.

Lemma cell_loc_ok ngs id : Forall (Z.lt 1) ngs -> grid_nb (cells_st ngs) < 2147483648 -> 0 <= id < grid_nb (cells_st ngs) ->
  exists pos, getLocationFromCellId ngs id = Ok pos /\ in_grid (cells_st ngs) pos /\ grid_id (cells_st ngs) pos = id.
Proof. intros H Hb Hid. unfold getLocationFromCellId. rewrite meshDim_ok by done. cbn [bind]. change (getCellGridStructure ngs) with (cells_st ngs). apply locate_ok; try done. by apply cells_pos. Qed.
Lemma cell_loc_throw ngs id : Forall (Z.lt 1) ngs -> grid_nb (cells_st ngs) < 2147483648 -> ~ 0 <= id < grid_nb (cells_st ngs) -> getLocationFromCellId ngs id = Throw.
Proof. intros H Hb Hid. unfold getLocationFromCellId. rewrite meshDim_ok by done. cbn [bind]. change (getCellGridStructure ngs) with (cells_st ngs). apply locate_throw; try done. by apply cells_pos. Qed.
Lemma cell_id_ok ngs pos i j k : dim_ok ngs -> grid_nb (cells_st ngs) < 2147483648 -> in_grid (cells_st ngs) pos -> take (length ngs) [i; j; k] = pos ->
  getCellIdFromPos ngs i j k = Ok (grid_id (cells_st ngs) pos) /\ getLocationFromCellId ngs (grid_id (cells_st ngs) pos) = Ok pos.
Proof.
  intros Hd Hb Hg Ht. assert (Forall (Z.lt 1) ngs) as Hp. { apply in_grid_pos in Hg. unfold cells_st in Hg. rewrite Forall_fmap in Hg. eapply Forall_impl; [exact Hg|]. simpl. lia. }
  split.
  - unfold getCellIdFromPos. rewrite meshDim_ok by done. cbn [bind]. change (getCellGridStructure ngs) with (cells_st ngs). apply idFromPos_ok; try done; [unfold dim_ok, cells_st in *; by rewrite zlen_fmap|]. unfold cells_st. by rewrite fmap_length.
  - destruct (cell_loc_ok ngs (grid_id (cells_st ngs) pos) Hp Hb (grid_id_range _ _ Hg)) as (pos' & -> & Hg' & He). f_equal. by apply (grid_id_inj (cells_st ngs)).
Qed.
Lemma node_loc_ok ngs id : Forall (Z.lt 0) ngs -> grid_nb ngs < 2147483648 -> 0 <= id < grid_nb ngs ->
  exists pos, getLocationFromNodeId ngs id = Ok pos /\ in_grid ngs pos /\ grid_id ngs pos = id.
Proof. apply locate_ok. Qed.
Lemma node_loc_throw ngs id : Forall (Z.lt 0) ngs -> grid_nb ngs < 2147483648 -> ~ 0 <= id < grid_nb ngs -> getLocationFromNodeId ngs id = Throw.
Proof. apply locate_throw. Qed.
Lemma node_id_ok ngs pos i j k : dim_ok ngs -> grid_nb ngs < 2147483648 -> in_grid ngs pos -> take (length ngs) [i; j; k] = pos ->
  getNodeIdFromPos ngs i j k = Ok (grid_id ngs pos) /\ getLocationFromNodeId ngs (grid_id ngs pos) = Ok pos.
Proof.
  intros Hd Hb Hg Ht. split; [by apply idFromPos_ok|]. destruct (node_loc_ok ngs (grid_id ngs pos) (in_grid_pos _ _ Hg) Hb (grid_id_range _ _ Hg)) as (pos' & -> & Hg' & He). f_equal. by apply (grid_id_inj ngs).
Qed.
(** A flat axis: there are cells, but none can be located. *)
Lemma accInt_0 l a : 0 ∈ l -> accInt Z.mul a l = 0.
Proof.
  intros H. unfold accInt. assert (forall l, foldl (fun a x => wrap32 (a * x)) 0 l = 0) as H0. { clear. induction l as [|x l IH]; [done|]. cbn [foldl]. rewrite Z.mul_0_l. change (wrap32 0) with 0. done. }
  revert a. induction l as [|x l IH]; intros a; [by apply elem_of_nil in H|]. cbn [foldl]. apply elem_of_cons in H as [<-|H]; [rewrite Z.mul_0_r; apply H0|]. by apply IH.
Qed.
Lemma flat_loc ngs id : Forall (Z.lt 0) ngs -> 1 ∈ ngs -> getLocationFromCellId ngs id = Throw.
Proof.
  intros Hp H1. unfold getLocationFromCellId. assert (exists d, getMeshDimension ngs = Ok d) as [d ->].
  { unfold getMeshDimension. assert (forall a, exists d, foldM (fun ret n => throw_if n <=? 0 >>> Ok (if 1 <? n then ret + 1 else ret)) ngs a = Ok d) as Hx; [|apply Hx]. clear H1. induction Hp as [|n ngs Hn _ IH]; intros a; [eexists; done|]. cbn [foldM]. replace (n <=? 0) with false by lia. cbn [ifthrow bind]. apply IH. }
  cbn [bind]. unfold locate. rewrite accInt_0.
  - replace ((id <? 0) || _) with true by lia. done.
  - unfold getCellGridStructure. apply elem_of_list_fmap. exists 1. done.
Qed.
