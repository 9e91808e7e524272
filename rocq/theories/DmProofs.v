(** The operations on matrices. *)
From Coq Require Import QArith Qcanon ZifyBool ZifyNat.
From Verif Require Import Base ArrLib DataArray SetModel ArithModel ArithSpec ArithProofs ArithProofs3 LayoutModel LayoutSpec LayoutProofs SkyModel SkyProofs RemapSpec IvModel IvSpec IvProofs6 DmModel DmSpec.
Local Open Scope Z_scope.

Lemma array_rd h p l : is_array h p l -> rd h p = Ok (DA true 1 l).
Proof. intros H. by apply rd_ok. Qed.
Lemma array_in h p l : is_array h p l -> 0 <= p < zlen h.
Proof. apply zlook_Some_lt. Qed.
Lemma rows_fun r c l : 0 <= r -> 0 <= c -> zlen l = r * c -> by_rows r c l (fun i j => default 0%Qc (l @ (i * c + j))).
Proof. intros Hr Hc HL. split; [done|]. intros i j Hi Hj. destruct (zlook_lt l (i * c + j)) as [x ->]; [nia|done]. Qed.
Lemma rows_ext r c l M M' : by_rows r c l M -> (forall i j, 0 <= i < r -> 0 <= j < c -> M i j = M' i j) -> by_rows r c l M'.
Proof. intros [H1 H2] H. split; [done|]. intros i j Hi Hj. rewrite H2 by done. f_equal. by apply H. Qed.
Lemma kept_app h a : kept h (h ++ [a]).
Proof. intros p x H. rewrite zlook_app_l; [done|]. by apply zlook_Some_lt in H as [_ ?]. Qed.
Lemma new_array_at h (a : da Qc) : (h ++ [a]) @ zlen h = Some a.
Proof. rewrite zlook_app_r by lia. by rewrite Z.sub_diag. Qed.
Lemma kept_denotes h h' m r c M : kept h h' -> denotes h m r c M -> denotes h' m r c M.
Proof. intros K (H1 & H2 & H3 & H4 & l & H5 & H6). split; [done|]. split; [done|]. split; [done|]. split; [done|]. exists l. split; [by apply K|done]. Qed.

Lemma check_ok h p l r c : is_array h p l -> 0 <= r -> 0 <= c -> zlen l = r * c -> CheckArraySizes h (Some p) r c = Ok p.
Proof. intros HA Hr Hc HL. unfold CheckArraySizes. replace ((r <? 0) || (c <? 0)) with false by lia. cbn [ifthrow]. rewrite (array_rd _ _ _ HA). cbn [bind da_alloc da_nc da_vals negb ifthrow]. rewrite Z.eqb_refl. replace (r * c =? zlen l) with true by lia. done. Qed.
Lemma check_iff h p r c q : CheckArraySizes h p r c = Ok q -> 0 <= r /\ 0 <= c /\ p = Some q /\ exists l, is_array h q l /\ zlen l = r * c.
Proof.
  unfold CheckArraySizes. destruct ((r <? 0) || (c <? 0)) eqn:E1; [done|]. cbn [ifthrow]. destruct p as [p|]; [|done]. unfold rd. destruct (h @ p) as [[al nc l]|] eqn:E; [|done]. cbn [bind da_alloc da_nc da_vals]. destruct al; [|done]. cbn [negb ifthrow].
  destruct (Z.eqb_spec nc 1) as [->|]; [|done]. cbn [negb ifthrow]. destruct (Z.eqb_spec (r * c) (zlen l)) as [E2|]; [|done]. cbn [negb ifthrow]. intros [= <-]. split; [lia|]. split; [lia|]. split; [done|]. exists l. by split.
Qed.
Lemma check_throw h p r c : (forall q, p = Some q -> 0 <= q < zlen h) -> (exists q, CheckArraySizes h p r c = Ok q) \/ CheckArraySizes h p r c = Throw.
Proof.
  intros HP. unfold CheckArraySizes. destruct ((r <? 0) || (c <? 0)); [by right|]. cbn [ifthrow]. destruct p as [p|]; [|by right]. destruct (zlook_lt h p (HP p eq_refl)) as [a E]. rewrite (rd_ok _ _ _ E). cbn [bind].
  destruct (da_alloc a); [|by right]. cbn [negb ifthrow]. destruct (da_nc a =? 1); [|by right]. cbn [negb ifthrow]. destruct (r * c =? zlen (da_vals a)); [|by right]. left. by exists p.
Qed.
Lemma new_ok h p l r c : is_array h p l -> 0 <= r -> 0 <= c -> zlen l = r * c -> New h (Some p) r c = Ok (DM r c p).
Proof. intros. unfold New. by rewrite (check_ok h p l). Qed.
Lemma new_iff h p r c m : (forall q, p = Some q -> 0 <= q < zlen h) -> (New h p r c = Ok m <-> exists q l, p = Some q /\ is_array h q l /\ 0 <= r /\ 0 <= c /\ zlen l = r * c /\ m = DM r c q) /\ (New h p r c = Throw \/ exists m, New h p r c = Ok m).
Proof.
  intros HP. split; [split|].
  - unfold New. intros H. destruct (check_throw h p r c HP) as [(q & E)|E]; rewrite E in H; [|done]. injection H as <-. apply check_iff in E as (H1 & H2 & H3 & l & H4 & H5). by exists q, l.
  - intros (q & l & -> & HA & Hr & Hc & HL & ->). by apply (new_ok h q l).
  - unfold New. destruct (check_throw h p r c HP) as [(q & ->)| ->]; [right|by left]. by exists (DM r c q).
Qed.
Lemma denotes_new h l r c M : 0 <= r -> 0 <= c -> by_rows r c l M -> denotes (h ++ [DA true 1 l]) (DM r c (zlen h)) r c M.
Proof. intros Hr Hc HL. split; [done|]. split; [done|]. split; [done|]. split; [done|]. exists l. split; [apply new_array_at|done]. Qed.
Lemma newArray_ok h l r c M : 0 <= r -> 0 <= c -> by_rows r c l M ->
  (let* (h', p) := newArray h (Some <$> l) in let* m := New h' (Some p) r c in Ok (h', m)) = Ok (h ++ [DA true 1 l], DM r c (zlen h)).
Proof. intros Hr Hc [HL _]. unfold newArray. rewrite initialised_ok. cbn [bind]. rewrite (new_ok _ _ l) by (try done; apply new_array_at). done. Qed.

Lemma fresh_new h l r c M : 0 <= r -> 0 <= c -> by_rows r c l M -> fresh h (h ++ [DA true 1 l], DM r c (zlen h)) r c M.
Proof. intros Hr Hc HL. split; [by apply denotes_new|]. split; [done|]. apply kept_app. Qed.
Lemma copy_ok h m r c M : denotes h m r c M -> exists x, deepCopy h m = Ok x /\ fresh h x r c M.
Proof.
  intros (Hr & Hc & E1 & E2 & l & HA & HL). eexists. unfold deepCopy. rewrite (array_rd _ _ _ HA). cbn [bind]. rewrite E1, E2. rewrite (new_ok _ _ l) by (first [done|apply new_array_at|apply HL]). cbn [bind]. split; [done|]. by apply fresh_new.
Qed.
Lemma shallow_ok h m r c M : denotes h m r c M -> shallowCpy h m = Ok m.
Proof. intros (Hr & Hc & E1 & E2 & l & HA & HL). unfold shallowCpy. rewrite (new_ok _ _ l) by (first [done|lia|rewrite E1, E2; apply HL]). by destruct m. Qed.
Lemma reshape_ok h m r c M r' c' : denotes h m r c M -> 0 <= r' -> 0 <= c' -> r' * c' = r * c ->
  exists m' M', reShape m r' c' = Ok m' /\ dm_data m' = dm_data m /\ denotes h m' r' c' M' /\ forall i j i' j', 0 <= i < r -> 0 <= j < c -> 0 <= i' < r' -> 0 <= j' < c' -> i * c + j = i' * c' + j' -> M' i' j' = M i j.
Proof.
  intros (Hr & Hc & E1 & E2 & l & HA & HL) Hr' Hc' E. exists (DM r' c' (dm_data m)), (fun i j => default 0%Qc (l @ (i * c' + j))). split; [|split; [done|split]].
  - unfold reShape, getNbOfElems. rewrite E1, E2. replace ((r' <? 0) || (c' <? 0)) with false by lia. replace (r' * c' =? r * c) with true by lia. done.
  - split; [done|]. split; [done|]. split; [done|]. split; [done|]. exists l. split; [done|]. apply rows_fun; [done|done|]. destruct HL as [HL _]. lia.
  - intros i j i' j' Hi Hj Hi' Hj' <-. destruct HL as [_ HL]. by rewrite HL.
Qed.
Lemma reshape_bad m r' c' : r' < 0 \/ c' < 0 \/ r' * c' <> dm_rows m * dm_cols m -> reShape m r' c' = Throw.
Proof. intros H. unfold reShape, getNbOfElems. destruct ((r' <? 0) || (c' <? 0)) eqn:E; [done|]. by replace (r' * c' =? dm_rows m * dm_cols m) with false by lia. Qed.
Lemma rebuild_ok h m q l r c : is_array h q l -> -1 <= r -> -1 <= c -> 0 <= dm_rows m -> 0 <= dm_cols m -> let r' := if r =? -1 then dm_rows m else r in let c' := if c =? -1 then dm_cols m else c in
  (zlen l = r' * c' -> reBuild h m (Some q) r c = Ok (DM r' c' q)) /\ (zlen l <> r' * c' -> reBuild h m (Some q) r c = Throw).
Proof.
  intros HA Hr Hc Hm1 Hm2 r' c'. unfold reBuild, getNumberExt. replace (r <? -1) with false by lia. replace (c <? -1) with false by lia. cbn [ifthrow bind]. fold r' c'. assert (0 <= r') by (unfold r'; destruct (Z.eqb_spec r (-1)); lia). assert (0 <= c') by (unfold c'; destruct (Z.eqb_spec c (-1)); lia). split; intros HL.
  - by rewrite (check_ok h q l).
  - unfold CheckArraySizes. replace ((r' <? 0) || (c' <? 0)) with false by lia. cbn [ifthrow]. rewrite (array_rd _ _ _ HA). cbn [bind da_alloc da_nc da_vals negb ifthrow]. rewrite Z.eqb_refl. by replace (r' * c' =? zlen l) with false by lia.
Qed.

(** std::copy of the new order onto the array. *)
Lemma overwrite (s l : list Qc) n : 0 <= n -> zlen s = n -> zlen l = n -> forZ 0 n (fun k l => let* v := rdc (Some <$> s) k in wr l k v) l = Ok s.
Proof.
  intros Hn Hs Hl. apply wp_ok_eq. apply (wp_forZ (fun k l' => zlen l' = n /\ forall x, 0 <= x < k -> l' @ x = s @ x)); [done| | |].
  - split; [done|]. intros x Hx. lia.
  - intros k l' Hk (H1 & H2). destruct (zlook_lt s k) as [v Hv]; [lia|]. rewrite (rdc_ok _ _ v) by (rewrite zlook_fmap, Hv; done). cbn [bind]. rewrite wr_ok by lia. cbn [wp]. split; [by rewrite zlen_zset|]. intros x Hx. rewrite zlook_zset by lia. destruct (Z.eqb_spec x k) as [->|]; [done|]. apply H2. lia.
  - intros l' (H1 & H2). apply zlook_ext_lt; [lia|]. intros x Hx. apply H2. lia.
Qed.
Lemma transpose_ok h m r c M : denotes h m r c M -> 0 < c ->
  exists h' m', transpose h m = Ok (h', m') /\ dm_data m' = dm_data m /\ denotes h' m' c r (fun i j => M j i) /\ kept_but (dm_data m) h h' /\ exists l, is_array h' (dm_data m) l /\ by_rows c r l (fun i j => M j i).
Proof.
  intros (Hr & Hc & E1 & E2 & l & HA & HL) H0. pose proof HL as [L1 L2]. unfold transpose. rewrite (array_rd _ _ _ HA). cbn [bind da_vals da_alloc da_nc]. rewrite E2. set (d := DA true c l).
  assert (Wd : da_wf d). { split; [done|]. exists r. split; [done|]. done. }
  assert (Nd : da_nt d = r). { unfold da_nt, d. cbn [da_nc da_vals]. replace (c =? 0) with false by lia. rewrite L1. apply Z.quot_mul. lia. }
  destruct (to_ok d Wd eq_refl ltac:(cbn; lia)) as (s & -> & HS1 & HS2). cbn [bind]. cbn [da_nc] in HS1, HS2. rewrite Nd in HS1, HS2. fold (da_nc d) in HS1. unfold getNbOfElems. rewrite E1, E2.
  assert (HS : zlen s = r * c) by (rewrite HS1; cbn; lia). rewrite overwrite by (first [nia|done]). cbn [bind]. pose proof (array_in _ _ _ HA) as HI. rewrite wr_ok by done. cbn [bind].
  assert (BR : by_rows c r s (fun i j => M j i)). { split; [by rewrite HS1|]. intros i j Hi Hj. rewrite HS2 by done. cbn [d da_nc da_vals]. by rewrite L2. }
  assert (AR : is_array (zset h (dm_data m) (DA true 1 s)) (dm_data m) s). { unfold is_array. rewrite zlook_zset by done. by rewrite Z.eqb_refl. }
  eexists _, _. split; [done|]. split; [done|]. split; [|split].
  - split; [done|]. split; [done|]. split; [done|]. split; [done|]. by exists s.
  - split; [by rewrite zlen_zset|]. intros p Hp. rewrite zlook_zset by done. by destruct (Z.eqb_spec p (dm_data m)).
  - by exists s.
Qed.
Lemma transpose_empty h m r M : denotes h m r 0 M -> transpose h m = Throw.
Proof. intros (Hr & Hc & E1 & E2 & l & HA & HL). unfold transpose. rewrite (array_rd _ _ _ HA). cbn [bind da_vals]. by rewrite E2. Qed.

(** Same sizes. *)
Lemma valid_ok h m l : is_array h (dm_data m) l -> checkValidData h m = Ok (DA true 1 l).
Proof. intros HA. unfold checkValidData. by rewrite (array_rd _ _ _ HA). Qed.
Lemma same_ok h a b l l' : is_array h (dm_data a) l -> is_array h (dm_data b) l' -> CheckSameSize h a b = if (dm_rows a =? dm_rows b) && (dm_cols a =? dm_cols b) then Ok (DA true 1 l, DA true 1 l') else Throw.
Proof. intros HA HB. unfold CheckSameSize. rewrite (valid_ok _ _ _ HA), (valid_ok _ _ _ HB). cbn [bind]. destruct (dm_rows a =? dm_rows b); [|done]. cbn [negb ifthrow andb]. by destruct (dm_cols a =? dm_cols b). Qed.
Lemma one_wf (l : list Qc) : da_wf (DA true 1 l).
Proof. split; [by cbn|]. exists (zlen l). split; [apply zlen_nonneg|]. cbn. lia. Qed.
Lemma one_nt (l : list Qc) : da_nt (DA true 1 l) = zlen l.
Proof. unfold da_nt. cbn [da_nc da_vals]. change (1 =? 0) with false. cbn iota. apply Z.quot_1_r. Qed.
Lemma one_ij (l : list Qc) i : 0 <= i -> ij (DA true 1 l) i 0 = l @ i.
Proof. intros Hi. unfold ij. cbn [da_nc da_vals]. replace ((0 <=? i) && (0 <=? 0) && (0 <? 1)) with true by lia. f_equal. lia. Qed.

Lemma comb_rows f r c l l' s M N : 0 <= r -> 0 <= c -> by_rows r c l M -> by_rows r c l' N -> zlen s = r * c -> (forall k x y, l @ k = Some x -> l' @ k = Some y -> s @ k = Some (f x y)) -> by_rows r c s (comb f M N).
Proof. intros Hr Hc [L1 L2] [L3 L4] HS H. split; [done|]. intros i j Hi Hj. by apply H; [apply L2|apply L4]. Qed.
Lemma built_comb (f : Qc -> Qc -> Qc) (l l' s : list Qc) : zlen l = zlen l' -> zlen s = zlen l * 1 -> (forall i j, 0 <= i < zlen l -> 0 <= j < 1 -> exists v, s @ (i * 1 + j) = Some v /\ combined_at (fun x y => Ok (f x y)) (DA true 1 l) (DA true 1 l') (zlen l) 1 i j v) ->
  forall k x y, l @ k = Some x -> l' @ k = Some y -> s @ k = Some (f x y).
Proof.
  intros E HS H k x y Hx Hy. pose proof (zlook_Some_lt _ _ _ Hx) as Hk. destruct (H k 0 Hk ltac:(lia)) as (v & Hv & x' & y' & E1 & E2 & E3). unfold spread in E1, E2. rewrite !one_nt in *. cbn [da_nc] in *. rewrite <- E in E2. rewrite !Z.eqb_refl in *.
  rewrite one_ij in E1, E2 by lia. rewrite Hx in E1. rewrite Hy in E2. injection E1 as <-. injection E2 as <-. injection E3 as <-. replace (k * 1 + 0) with k in Hv by lia. done.
Qed.
Lemma add_ok h a b r c MA MB : denotes h a r c MA -> denotes h b r c MB -> exists x, Add h a b = Ok x /\ fresh h x r c (comb Qcplus MA MB).
Proof.
  intros (Hr & Hc & A1 & A2 & l & HA & HL) (_ & _ & B1 & B2 & l' & HB & HL'). unfold Add. rewrite (same_ok _ _ _ _ _ HA HB). rewrite A1, A2, B1, B2, !Z.eqb_refl. cbn [andb bind]. assert (E : zlen l = zlen l') by (destruct HL as [-> _], HL' as [-> _]; done).
  destruct (mulAdd_ok addQ (DA true 1 l) (DA true 1 l')) as [HO _]; [intros x y; unfold addQ; f_equal; ring|apply one_wf|apply one_wf|intros i j x y _ _; by eexists|].
  cbn zeta in HO. rewrite !one_nt in HO. cbn [da_nc] in HO. rewrite <- E, !Z.max_id in HO. destruct HO as (s & -> & HS & HV); [left; rewrite !one_nt; cbn [da_nc]; split; [done|by left]|]. cbn [bind da_vals].
  assert (BR : by_rows r c s (comb Qcplus MA MB)). { apply (comb_rows Qcplus r c l l' s); try done; [destruct HL as [HL _]; lia|]. apply built_comb; done. }
  rewrite (newArray_ok h s r c _ Hr Hc BR). eexists. split; [done|]. by apply fresh_new.
Qed.
Lemma sub_ok h a b r c MA MB : denotes h a r c MA -> denotes h b r c MB -> exists x, Substract h a b = Ok x /\ fresh h x r c (comb Qcminus MA MB).
Proof.
  intros (Hr & Hc & A1 & A2 & l & HA & HL) (_ & _ & B1 & B2 & l' & HB & HL'). unfold Substract. rewrite (same_ok _ _ _ _ _ HA HB). rewrite A1, A2, B1, B2, !Z.eqb_refl. cbn [andb bind]. assert (E : zlen l = zlen l') by (destruct HL as [-> _], HL' as [-> _]; done).
  destruct (divSub_ok subQ (DA true 1 l) (DA true 1 l')) as [HO _]; [apply one_wf|apply one_wf|intros i j x y _ _; by eexists|].
  rewrite !one_nt in HO. cbn [da_nc] in HO. destruct HO as (s & -> & HS & HV); [left; rewrite !one_nt; cbn [da_nc]; split; [done|by left]|]. cbn [bind da_vals].
  assert (BR : by_rows r c s (comb Qcminus MA MB)). { apply (comb_rows Qcminus r c l l' s); try done; [destruct HL as [HL _]; lia|]. apply built_comb; done. }
  rewrite (newArray_ok h s r c _ Hr Hc BR). eexists. split; [done|]. by apply fresh_new.
Qed.
Lemma sizes_bad h a b r c r' c' MA MB : denotes h a r c MA -> denotes h b r' c' MB -> r <> r' \/ c <> c' -> Add h a b = Throw /\ Substract h a b = Throw /\ addEqual h a b = Throw /\ substractEqual h a b = Throw.
Proof.
  intros (Hr & Hc & A1 & A2 & l & HA & HL) (_ & _ & B1 & B2 & l' & HB & HL') N. unfold Add, Substract, addEqual, substractEqual, onArray. rewrite (same_ok _ _ _ _ _ HA HB). rewrite A1, A2, B1, B2. by replace ((r =? r') && (c =? c')) with false by lia.
Qed.
Lemma onArray_ok f h a b r c MA MB : denotes h a r c MA -> denotes h b r c MB -> exists h', onArray (fun x y => Ok (f x y)) h a b = Ok h' /\ denotes h' a r c (comb f MA MB) /\ kept_but (dm_data a) h h'.
Proof.
  intros (Hr & Hc & A1 & A2 & l & HA & HL) (_ & _ & B1 & B2 & l' & HB & HL'). unfold onArray. rewrite (same_ok _ _ _ _ _ HA HB). rewrite A1, A2, B1, B2, !Z.eqb_refl. cbn [andb bind]. assert (E : zlen l = zlen l') by (destruct HL as [-> _], HL' as [-> _]; done).
  assert (S0 : exists s, somethingEqual (fun x y => Ok (f x y)) (DA true 1 l) (if dm_data a =? dm_data b then Self else Other (DA true 1 l')) = (Ok tt, DA true 1 s) /\ zlen s = zlen l /\ forall k x y, l @ k = Some x -> l' @ k = Some y -> s @ k = Some (f x y)).
  { destruct (Z.eqb_spec (dm_data a) (dm_data b)) as [Ed|_].
    - assert (l' = l) as -> by (unfold is_array in *; rewrite Ed in HA; congruence). destruct (something_self (fun x y => Ok (f x y)) (DA true 1 l) (one_wf l)) as [H _]; [intros i j x y _ _; by eexists|]. destruct (H eq_refl) as (s & Es & Cs & Ds). exists s. split; [done|]. split; [done|].
      intros k x y Hx Hy. pose proof (zlook_Some_lt _ _ _ Hx) as Hk. destruct (Ds k 0 x) as (y' & v & E1 & E2 & E3); [by rewrite one_ij by lia|]. rewrite one_ij in E1 by lia. rewrite Hy in E1. injection E1 as <-. injection E2 as <-. cbn [da_nc] in E3. by replace (k * 1 + 0) with k in E3 by lia.
    - destruct (something_ok (fun x y => Ok (f x y)) (DA true 1 l) (DA true 1 l') (one_wf l) (one_wf l')) as [H _]; [intros i j x y _ _; by eexists|]. destruct H as (s & Es & Cs & Ds); [split; [done|]; split; [done|]; left; rewrite !one_nt; split; [done|by left]|]. exists s. split; [done|]. split; [done|].
      intros k x y Hx Hy. pose proof (zlook_Some_lt _ _ _ Hx) as Hk. destruct (Ds k 0 x) as (y' & v & E1 & E2 & E3); [by rewrite one_ij by lia|]. unfold operand, spread in E1. rewrite !one_nt, E, Z.eqb_refl in E1. cbn [da_nc] in E1. rewrite Z.eqb_refl in E1. rewrite one_ij in E1 by lia. rewrite Hy in E1. injection E1 as <-. injection E2 as <-. cbn [da_nc] in E3. by replace (k * 1 + 0) with k in E3 by lia. }
  destruct S0 as (s & -> & HS & HV). pose proof (array_in _ _ _ HA) as HI. rewrite wr_ok by done. eexists. split; [done|]. split.
  - split; [done|]. split; [done|]. split; [done|]. split; [done|]. exists s. split; [unfold is_array; rewrite zlook_zset by done; by rewrite Z.eqb_refl|]. apply (comb_rows f r c l l' s); try done. destruct HL as [HL _]. lia.
  - split; [by rewrite zlen_zset|]. intros p Hp. rewrite zlook_zset by done. by destruct (Z.eqb_spec p (dm_data a)).
Qed.
Lemma addEqual_ok h a b r c MA MB : denotes h a r c MA -> denotes h b r c MB -> exists h', addEqual h a b = Ok h' /\ denotes h' a r c (comb Qcplus MA MB) /\ kept_but (dm_data a) h h'.
Proof. apply (onArray_ok Qcplus). Qed.
Lemma subEqual_ok h a b r c MA MB : denotes h a r c MA -> denotes h b r c MB -> exists h', substractEqual h a b = Ok h' /\ denotes h' a r c (comb Qcminus MA MB) /\ kept_but (dm_data a) h h'.
Proof. apply (onArray_ok Qcminus). Qed.
Lemma multiply_ok h a b r n c MA MB : denotes h a r n MA -> denotes h b n c MB -> exists x MC, Multiply h a b = Ok x /\ fresh h x r c MC /\ is_product r n c MA MB MC.
Proof.
  intros (Hr & Hn & A1 & A2 & l & HA & HL) (_ & Hc & B1 & B2 & l' & HB & HL'). unfold Multiply, CheckCompatibleSizeForMul. rewrite (valid_ok _ _ _ HA), (valid_ok _ _ _ HB). cbn [bind]. rewrite A1, A2, B1, B2, Z.eqb_refl. cbn [negb ifthrow bind da_vals].
  destruct (product_ok r n c l l' MA MB Hr Hn Hc HL HL') as (s & MC & -> & BR & HP). cbn [bind]. rewrite (newArray_ok h s r c _ Hr Hc BR). eexists _, MC. split; [done|]. split; [by apply fresh_new|done].
Qed.
Lemma multiply_bad h a b r n n' c MA MB : denotes h a r n MA -> denotes h b n' c MB -> n <> n' -> Multiply h a b = Throw.
Proof. intros (Hr & Hn & A1 & A2 & l & HA & HL) (_ & Hc & B1 & B2 & l' & HB & HL') N. unfold Multiply, CheckCompatibleSizeForMul. rewrite (valid_ok _ _ _ HA), (valid_ok _ _ _ HB). cbn [bind]. rewrite A2, B1. by replace (n =? n') with false by lia. Qed.
Lemma column_denotes h p v : is_array h p v -> denotes h (DM (zlen v) 1 p) (zlen v) 1 (fun i _ => default 0%Qc (v @ i)).
Proof. intros HA. split; [apply zlen_nonneg|]. split; [done|]. split; [done|]. split; [done|]. exists v. split; [done|]. split; [lia|]. intros i j Hi Hj. replace (i * 1 + j) with i by lia. by destruct (zlook_lt v i Hi) as [x ->]. Qed.
Lemma multiplyArr_eq h a p v : is_array h p v -> MultiplyArr h a (Some p) = Multiply h a (DM (zlen v) 1 p).
Proof. intros HA. unfold MultiplyArr. rewrite (array_rd _ _ _ HA). cbn [bind da_alloc negb ifthrow da_nc]. rewrite Z.eqb_refl, one_nt. cbn [negb ifthrow]. rewrite (new_ok h p v) by (first [done|apply zlen_nonneg|lia]). done. Qed.
Lemma matvec_ok h m r n M p v : denotes h m r n M -> is_array h p v -> zlen v = n -> exists h' l, MatVecMult h m (Some p) = Ok (h', zlen h) /\ is_array h' (zlen h) l /\ image r n M v l /\ kept h h'.
Proof.
  intros (Hr & Hn & A1 & A2 & l & HA & HL) HV E. unfold MatVecMult. rewrite (array_rd _ _ _ HV). cbn [bind da_alloc negb ifthrow da_nc]. rewrite Z.eqb_refl, one_nt, A2, E, Z.eqb_refl. cbn [negb ifthrow]. rewrite (array_rd _ _ _ HA). cbn [bind da_vals]. rewrite A1.
  destruct (column_denotes h p v HV) as (_ & _ & _ & _ & v' & HV' & HC). assert (v' = v) as -> by (unfold is_array in *; cbn [dm_data] in HV'; congruence). rewrite E in HC.
  destruct (product_ok r n 1 l v M _ Hr Hn ltac:(lia) HL HC) as (s & MC & -> & (S1 & S2) & HP). cbn [bind]. unfold newArray. rewrite initialised_ok. cbn [bind]. eexists _, s. split; [done|]. split; [apply new_array_at|]. split; [|apply kept_app].
  split; [lia|]. intros i Hi. replace i with (i * 1 + 0) at 1 by lia. rewrite S2 by lia. f_equal. apply HP; lia.
Qed.
Lemma matvec_bad h m r n M p v : denotes h m r n M -> is_array h p v -> zlen v <> n -> MatVecMult h m (Some p) = Throw.
Proof. intros (Hr & Hn & A1 & A2 & l & HA & HL) HV E. unfold MatVecMult. rewrite (array_rd _ _ _ HV). cbn [bind da_alloc negb ifthrow da_nc]. rewrite Z.eqb_refl, one_nt, A2. cbn [negb ifthrow]. by replace (zlen v =? n) with false by lia. Qed.
