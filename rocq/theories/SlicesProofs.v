From Verif Require Import Base DataArray SlicesModel SlicesSpec.
From Coq Require Import ZifyBool ZifyNat.

Definition rangeL (b s n : Z) : list Z := (fun k => b + k * s) <$> seqZ 0 n.

Lemma rangeL_len b s n : 0 <= n -> zlen (rangeL b s n) = n.
Proof. intros. unfold rangeL. rewrite zlen_fmap, zlen_seqZ. lia. Qed.

Lemma rangeL_look b s n k : 0 <= k < n -> rangeL b s n @ k = Some (b + k * s).
Proof. intros. unfold rangeL. rewrite zlook_fmap, zlook_seqZ by lia. done. Qed.

Lemma rangeL_look_Some b s n k v : rangeL b s n @ k = Some v <-> 0 <= k < n /\ v = b + k * s.
Proof.
  split.
  - intros H. pose proof (zlook_Some_lt _ _ _ H) as Hk.
    destruct (decide (0 <= n)) as [Hn|Hn].
    + rewrite rangeL_len in Hk by lia. rewrite rangeL_look in H by lia. split; [lia|congruence].
    + unfold rangeL in Hk. rewrite zlen_fmap, zlen_seqZ in Hk. lia.
  - intros [H ->]. apply rangeL_look; done.
Qed.

Lemma rangeL_is_range b e s n :
  0 <= n -> (forall k, 0 <= k -> before s (b + k * s) e <-> k < n) -> is_range_list b e s (rangeL b s n).
Proof.
  intros Hn Hb k v. rewrite rangeL_look_Some. split.
  - intros [Hk ->]. repeat split; try lia. apply Hb; lia.
  - intros (Hk & -> & H). apply Hb in H; [|lia]. lia.
Qed.

Lemma is_range_list_unique b e s l l' : is_range_list b e s l -> is_range_list b e s l' -> l = l'.
Proof.
  intros H H'. apply zlook_ext. intros i.
  destruct (l @ i) as [v|] eqn:E.
  - symmetry. apply H', H. done.
  - destruct (l' @ i) as [v|] eqn:E'; [|done]. apply H', H in E'. congruence.
Qed.

Lemma count_ok b e s : valid_range b e s ->
  exists n, GetNumberOfItemGivenBESRelative b e s = Ok n /\ 0 <= n /\
    (forall k, 0 <= k -> before s (b + k * s) e <-> k < n).
Proof.
  intros (Hs & Hp & Hn). unfold GetNumberOfItemGivenBESRelative, ifthrow.
  replace (s =? 0) with false by lia.
  replace ((e <? b) && (0 <? s)) with false by lia.
  replace ((b <? e) && (s <? 0)) with false by lia.
  destruct (Z.eqb_spec b e) as [->|Hne]; simpl.
  - exists 0. repeat split; try lia; unfold before; intros; nia.
  - rewrite Z.quot_div_nonneg by lia. eexists; split; [done|].
    destruct (decide (b < e)) as [Hlt|Hge].
    + assert (0 < s) by auto. rewrite Z.max_r, Z.min_l, Z.abs_eq by lia.
      split; [pose proof (Z.div_pos (e - 1 - b) s); lia|]. intros k Hk. unfold before. split.
      * intros [[_ H']|[? _]]; [|lia]. assert (k <= (e - 1 - b) / s); [|lia].
        apply Z.div_le_lower_bound; nia.
      * intros H'. left. split; [done|]. pose proof (Z.mul_div_le (e - 1 - b) s). nia.
    + assert (s < 0) by (apply Hn; lia). rewrite Z.max_l, Z.min_r, Z.abs_neq by lia.
      split; [pose proof (Z.div_pos (b - 1 - e) (- s)); lia|]. intros k Hk. unfold before. split.
      * intros [[? _]|[_ H']]; [lia|]. assert (k <= (b - 1 - e) / - s); [|lia].
        apply Z.div_le_lower_bound; nia.
      * intros H'. right. split; [done|]. pose proof (Z.mul_div_le (b - 1 - e) (- s)). nia.
Qed.

Lemma count_throw b e s : GetNumberOfItemGivenBESRelative b e s = Throw <-> ~ valid_range b e s.
Proof.
  split.
  - intros H Hv. destruct (count_ok b e s Hv) as (n & Hn & _). congruence.
  - intros H. unfold GetNumberOfItemGivenBESRelative, ifthrow, valid_range in *.
    destruct (s =? 0) eqn:E1; [done|]. destruct ((e <? b) && (0 <? s)) eqn:E2; [done|].
    destruct ((b <? e) && (s <? 0)) eqn:E3; [done|]. exfalso. apply H. lia.
Qed.

Lemma valid_range_dec b e s : valid_range b e s \/ ~ valid_range b e s.
Proof. unfold valid_range. lia. Qed.

Lemma count_is_len b e s l : valid_range b e s -> is_range_list b e s l ->
  GetNumberOfItemGivenBESRelative b e s = Ok (zlen l).
Proof.
  intros Hv Hl. destruct (count_ok b e s Hv) as (n & -> & Hn & Hb).
  rewrite (is_range_list_unique _ _ _ _ _ Hl (rangeL_is_range _ _ _ _ Hn Hb)).
  rewrite rangeL_len by done. done.
Qed.

Lemma bes_relative b e s : 0 < s -> GetNumberOfItemGivenBES b e s = GetNumberOfItemGivenBESRelative b e s.
Proof.
  intros Hs. unfold GetNumberOfItemGivenBES, GetNumberOfItemGivenBESRelative, ifthrow.
  replace (s =? 0) with false by lia. replace (s <=? 0) with false by lia.
  replace (s <? 0) with false by lia. rewrite andb_false_r.
  replace (0 <? s) with true by lia. rewrite andb_true_r.
  destruct (e <? b) eqn:E; [done|]. destruct (Z.eqb_spec e b) as [->|Hne].
  - rewrite Z.eqb_refl. done.
  - replace (b =? e) with false by lia. simpl. rewrite Z.max_r, Z.min_l, Z.abs_eq by lia. done.
Qed.

Lemma bes_throw b e s : GetNumberOfItemGivenBES b e s = Throw <-> e < b \/ (b < e /\ s <= 0).
Proof.
  unfold GetNumberOfItemGivenBES, ifthrow.
  destruct (e <? b) eqn:E1; [split; [lia|done]|].
  destruct (e =? b) eqn:E2; [split; [done|lia]|].
  destruct (s <=? 0) eqn:E3; split; try done; lia.
Qed.

Lemma bes_len b e s l : (b = e \/ (b < e /\ 0 < s)) -> is_range_list b e s l ->
  GetNumberOfItemGivenBES b e s = Ok (zlen l).
Proof.
  intros [->|[H Hs]] Hl.
  - assert (l = []) as ->.
    { destruct l as [|x l]; [done|]. pose proof (proj1 (Hl 0 x) eq_refl) as (_ & -> & Hb).
      unfold before in Hb. lia. }
    unfold GetNumberOfItemGivenBES, ifthrow. rewrite Z.ltb_irrefl, Z.eqb_refl. done.
  - rewrite bes_relative by done. apply count_is_len; [|done]. unfold valid_range. lia.
Qed.

Lemma pos_correct v b e s l : is_range_list b e s l ->
  let p := GetPosOfItemGivenBESRelativeNoThrow v b e s in
  (l @ p = Some v) \/ (p = -1 /\ v ∉ l).
Proof.
  intros Hl p. subst p. unfold GetPosOfItemGivenBESRelativeNoThrow.
  destruct (s =? 0) eqn:E0.
  { right. split; [done|]. intros [k Hk]%elem_of_zlook. apply Hl in Hk. unfold before in Hk. lia. }
  destruct (_ || _) eqn:E1.
  - destruct (b + s * Z.quot (v - b) s =? v) eqn:E2.
    + left. apply Hl. assert (Hv : b + Z.quot (v - b) s * s = v) by lia.
      unfold before. repeat split; nia.
    + right. split; [done|]. intros [k Hk]%elem_of_zlook. apply Hl in Hk as (Hk & -> & _).
      replace (b + k * s - b) with (k * s) in E2 by lia. rewrite Z.quot_mul in E2 by lia. lia.
  - right. split; [done|]. intros [k Hk]%elem_of_zlook. apply Hl in Hk as (Hk & Hv & Hb).
    unfold before in Hb. nia.
Qed.

Lemma range_while b e s n (k : nat) : forall i buf,
  (forall k, 0 <= k -> before s (b + k * s) e <-> k < n) -> 0 <= i <= n -> zlen buf = n ->
  (Z.of_nat k > n - i) -> s <> 0 ->
  (forall j, 0 <= j < i -> buf @ j = Some (Some (b + j * s))) ->
  exists i' p', whileM k
      (fun '(i, _, _) => Ok (if 0 <? s then i <? e else e <? i))
      (fun '(i, p, buf) => let* buf := wrc buf p i in Ok (i + s, p + 1, buf))
      (b + i * s, i, buf) = Ok (i', p', Some <$> rangeL b s n).
Proof.
  induction k as [|k IH]; intros i buf Hb Hi Hl Hk Hs Hpre; [lia|].
  cbn [whileM bind].
  assert (Hc : (if 0 <? s then b + i * s <? e else e <? b + i * s) = (i <? n)).
  { pose proof (Hb i ltac:(lia)) as HH. unfold before in HH. destruct (0 <? s) eqn:E; lia. }
  rewrite Hc. destruct (i <? n) eqn:E.
  - unfold wrc. rewrite wr_ok by lia. cbn [bind].
    replace (b + i * s + s) with (b + (i + 1) * s) by lia.
    apply IH; auto; try lia.
    + rewrite zlen_zset. done.
    + intros j Hj. rewrite zlook_zset by lia. destruct (Z.eqb_spec j i) as [->|]; [done|]. apply Hpre; lia.
  - eexists _, _. repeat f_equal. apply zlook_ext_lt.
    + rewrite zlen_fmap, rangeL_len by lia. done.
    + intros j Hj. rewrite zlook_fmap, rangeL_look by lia. rewrite Hpre by lia. done.
Qed.

Lemma range_rangeL b e s : valid_range b e s ->
  exists n, 0 <= n /\ (forall k, 0 <= k -> before s (b + k * s) e <-> k < n) /\
    GetNumberOfItemGivenBESRelative b e s = Ok n /\
    Range b e s = Ok (Some <$> rangeL b s n).
Proof.
  intros Hv. destruct (count_ok b e s Hv) as (n & Hc & Hn & Hb). exists n. repeat split; try done; try (apply Hb; done).
  unfold Range. rewrite Hc. cbn [bind].
  destruct (range_while b e s n (Datatypes.S (Datatypes.S (Z.to_nat n))) 0 (malloc Z n)) as (i' & p' & HW);
    auto; try lia.
  - rewrite zlen_malloc. lia.
  - apply Hv.
  - rewrite Z.mul_0_l, Z.add_0_r in HW. rewrite HW. done.
Qed.

Lemma range_ok b e s : valid_range b e s ->
  exists l, Range b e s = Ok (Some <$> l) /\ is_range_list b e s l.
Proof.
  intros Hv. destruct (range_rangeL b e s Hv) as (n & Hn & Hb & _ & HR).
  exists (rangeL b s n). split; [done|]. apply rangeL_is_range; done.
Qed.

Lemma range_throw b e s : Range b e s = Throw <-> ~ valid_range b e s.
Proof.
  split.
  - intros H Hv. destruct (range_ok b e s Hv) as (l & Hl & _). congruence.
  - intros H. apply count_throw in H. unfold Range. rewrite H. done.
Qed.

Lemma range_list_eq b e s l : valid_range b e s -> is_range_list b e s l -> Range b e s = Ok (Some <$> l).
Proof.
  intros Hv Hl. destruct (range_ok b e s Hv) as (l' & -> & Hl').
  rewrite (is_range_list_unique _ _ _ _ _ Hl Hl'). done.
Qed.

(** ** Slices *)

Lemma rangeL_app b s n m : 0 <= n -> 0 <= m -> rangeL b s (n + m) = rangeL b s n ++ rangeL (b + n * s) s m.
Proof.
  intros Hn Hm. apply zlook_ext_lt.
  - rewrite zlen_app, !rangeL_len by lia. done.
  - intros i Hi. rewrite rangeL_len in Hi by lia. rewrite rangeL_look by lia.
    rewrite zlook_app, rangeL_len by lia. destruct (i <? n) eqn:E; rewrite rangeL_look by lia; f_equal; lia.
Qed.

Lemma slice_partition start stop step n : valid_range start stop step -> 0 < n ->
  exists ls : list (list Z), zlen ls = n /\
    (forall i, 0 <= i < n -> exists a c li,
        ls @ i = Some li /\ GetSlice start stop step i n = Ok (a, c) /\ Range a c step = Ok (Some <$> li)) /\
    Range start stop step = Ok (Some <$> concat ls).
Proof.
  intros Hv Hn. destruct (range_rangeL _ _ _ Hv) as (N & HN & Hb & Hc & HR).
  set (m := N / n). assert (Hm : 0 <= m) by (apply Z.div_pos; lia).
  assert (Hmn : m * n <= N) by (pose proof (Z.mul_div_le N n Hn); subst m; lia).
  set (sl := fun i => rangeL (start + m * step * i) step (if i <? n - 1 then m else N - m * (n - 1))).
  exists (sl <$> seqZ 0 n). split; [rewrite zlen_fmap, zlen_seqZ; lia|]. split.
  - intros i Hi. unfold GetSlice, ifthrow.
    replace (n <=? 0) with false by lia. replace ((i <? 0) || (n <=? i)) with false by lia.
    rewrite Hc. cbn [bind]. rewrite Z.quot_div_nonneg by lia. fold m.
    eexists _, _, (sl i). split; [rewrite zlook_fmap, zlook_seqZ by lia; done|]. split; [done|].
    destruct Hv as (Hs & Hp & Hneg).
    assert (Hb0 : before step start stop <-> 0 < N) by (pose proof (Hb 0 ltac:(lia)); rewrite Z.mul_0_l, Z.add_0_r in *; done).
    unfold sl. destruct (i <? n - 1) eqn:E.
    + apply range_list_eq.
      * unfold valid_range. split; [done|]. split; nia.
      * apply rangeL_is_range; [lia|]. intros k Hk. unfold before. split; nia.
    + replace i with (n - 1) in * by lia.
      apply range_list_eq.
      * unfold valid_range. split; [done|]. unfold before in Hb0.
        assert (Hmn1 : 0 <= m * (n - 1) <= N) by nia.
        pose proof (Hb (m * (n - 1)) ltac:(lia)) as Hb1. unfold before in Hb1.
        destruct (decide (m * (n - 1) = N)) as [Heq|].
        { assert (N = 0 \/ n = 1) as [?| ->] by nia.
          - assert (m = 0) by nia. split; intros; nia.
          - split; intros; nia. }
        split; intros; nia.
      * apply rangeL_is_range; [nia|]. intros k Hk.
        pose proof (Hb (m * (n - 1) + k) ltac:(nia)) as Hb1.
        replace (start + m * step * (n - 1) + k * step) with (start + (m * (n - 1) + k) * step) by lia.
        rewrite Hb1. lia.
  - rewrite HR. do 2 f_equal.
    assert (Hgen : forall j : nat, Z.of_nat j <= n - 1 -> concat (sl <$> seqZ 0 (Z.of_nat j)) = rangeL start step (m * Z.of_nat j)).
    { induction j as [|j IH]; intros Hj.
      - rewrite Z.mul_0_r. done.
      - replace (Z.of_nat (Datatypes.S j)) with (Z.of_nat j + 1) by lia. rewrite seqZ_app_r by lia.
        rewrite fmap_app, List.concat_app, IH by lia. simpl. rewrite app_nil_r.
        rewrite Z.mul_add_distr_l, Z.mul_1_r. rewrite rangeL_app by lia. f_equal.
        unfold sl. rewrite Z.add_0_l. replace (Z.of_nat j <? n - 1) with true by lia. f_equal. lia. }
    replace n with (n - 1 + 1) by lia. rewrite seqZ_app_r by lia. rewrite fmap_app, List.concat_app.
    specialize (Hgen (Z.to_nat (n - 1)) ltac:(lia)). rewrite Z2Nat.id in Hgen by lia. rewrite Hgen. simpl. rewrite app_nil_r.
    unfold sl. rewrite Z.add_0_l, Z.ltb_irrefl.
    replace N with (m * (n - 1) + (N - m * (n - 1))) at 1 by lia. rewrite rangeL_app by nia. f_equal. f_equal; lia.
Qed.

Lemma slice_throw start stop step i n :
  GetSlice start stop step i n = Throw <-> n <= 0 \/ ~ 0 <= i < n \/ ~ valid_range start stop step.
Proof.
  unfold GetSlice, ifthrow. destruct (n <=? 0) eqn:E1; [split; [lia|done]|].
  destruct ((i <? 0) || (n <=? i)) eqn:E2; [split; [lia|done]|].
  split.
  - intros H. right. right. intros Hv. destruct (count_ok _ _ _ Hv) as (N & Hc & _). rewrite Hc in H. done.
  - intros [H|[H|H]]; try lia. apply count_throw in H. rewrite H. done.
Qed.

(** ** isRange *)

Lemma isRangeLoop_spec l tmp step : isRangeLoop l tmp step = true <-> l = rangeL tmp step (zlen l).
Proof.
  revert tmp; induction l as [|x l IH]; intros tmp; simpl.
  - done.
  - rewrite zlen_cons. pose proof (zlen_nonneg l). rewrite rangeL_app by lia.
    change (rangeL tmp step 1) with [tmp + 0 * step]. simpl.
    destruct (Z.eqb_spec x tmp) as [->|Hne].
    + rewrite IH. replace (tmp + 1 * step) with (tmp + step) by lia. rewrite Z.mul_0_l, Z.add_0_r.
      split; [intros <-; done|congruence].
    + split; [done|]. rewrite Z.mul_0_l, Z.add_0_r. congruence.
Qed.

Lemma isRange_shape d : isRange d = Throw <-> da_alloc d = false \/ da_nc d <> 1.
Proof.
  unfold isRange, checkAllocated, checkOneComp, ifthrow. destruct (da_alloc d); simpl; [|split; [by left|done]].
  destruct (Z.eqb_spec (da_nc d) 1) as [Hnc|Hnc]; simpl; [|split; [by right|done]].
  split; [|intros [?|?]; done].
  assert (Hnt : da_nt d = zlen (da_vals d)) by (unfold da_nt; rewrite Hnc; simpl; apply Z.quot_1_r).
  rewrite Hnt. pose proof (zlen_nonneg (da_vals d)). unfold ubif.
  destruct (zlen (da_vals d) =? 0) eqn:E; [done|].
  destruct (zlook_lt (da_vals d) 0 ltac:(lia)) as [x Hx]. rewrite (rd_ok _ _ _ Hx). cbn [bind].
  destruct (zlen (da_vals d) =? 1) eqn:E1; [done|].
  destruct (zlook_lt (da_vals d) (zlen (da_vals d) - 1) ltac:(lia)) as [y Hy]. rewrite (rd_ok _ _ _ Hy). cbn [bind].
  repeat case_match; done.
Qed.

Lemma isRange_correct l :
  (exists a b c, isRange (vec l) = Ok (Some (a, b, c)) /\ Range a b c = Ok (Some <$> l)) \/
  (isRange (vec l) = Ok None /\ forall a b c, Range a b c <> Ok (Some <$> l)).
Proof.
  unfold isRange, checkAllocated, checkOneComp, ifthrow, vec, da_nt. cbn [da_alloc da_nc da_vals negb Z.eqb Pos.eqb].
  rewrite Z.quot_1_r. pose proof (zlen_nonneg l) as Hn.
  destruct (zlen l =? 0) eqn:E.
  { left. exists 0, 0, 1. split; [done|]. destruct l; [done|]. rewrite zlen_cons in E. pose proof (zlen_nonneg l). lia. }
  destruct (zlook_lt l 0 ltac:(lia)) as [x Hx]. rewrite (rd_ok _ _ _ Hx). cbn [bind].
  destruct (zlen l =? 1) eqn:E1.
  { left. exists x, (x + 1), 1. split; [done|]. assert (l = [x]) as ->.
    { destruct l as [|y [|z l]]; rewrite ?zlen_cons in *; try (pose proof (zlen_nonneg l)); try done; try lia.
      rewrite zlook_cons in Hx. simpl in Hx. congruence. }
    apply range_list_eq; [unfold valid_range; lia|]. intros k v. rewrite zlook_cons. unfold before.
    destruct (Z.eqb_spec k 0) as [->|]; [split; [intros [= ->]; lia|]|split; [rewrite zlook_nil; done|lia]].
    intros (_ & -> & _). f_equal; lia. }
  destruct (zlook_lt l (zlen l - 1) ltac:(lia)) as [y Hy]. rewrite (rd_ok _ _ _ Hy). cbn [bind].
  assert (Hneed : forall a b c, Range a b c = Ok (Some <$> l) -> c <> 0 /\ x = a /\ y = a + (zlen l - 1) * c /\ l = rangeL a c (zlen l)).
  { intros a b c HR. destruct (valid_range_dec a b c) as [Hv|Hv].
    - destruct (range_rangeL a b c Hv) as (N & HN & Hb & _ & HR'). rewrite HR' in HR. injection HR as HR.
      apply Some_fmap_inj in HR.
      assert (N = zlen l) by (rewrite <- HR, rangeL_len by lia; done). subst N.
      assert (Hlk : forall k, 0 <= k < zlen l -> l @ k = Some (a + k * c)) by (intros k Hk; rewrite <- HR; apply rangeL_look; done).
      rewrite Hlk in Hx, Hy by lia. destruct Hv. split; [done|]. injection Hx as <-. injection Hy as <-.
      repeat split; try lia. done.
    - apply range_throw in Hv. congruence. }
  unfold ubif. replace (zlen l - 1 =? 0) with false by lia.
  destruct (x =? y) eqn:E2.
  { right. split; [done|]. intros a b c HR. destruct (Hneed a b c HR) as (Hc & -> & Hy' & _). nia. }
  destruct (x <? y) eqn:E3.
  - replace (y + 1 - 1 - x) with (y - x) by lia.
    destruct (Z.rem (y - x) (zlen l - 1) =? 0) eqn:E4; simpl.
    2:{ right. split; [done|]. intros a b c HR. destruct (Hneed a b c HR) as (Hc & -> & -> & _).
        replace (a + (zlen l - 1) * c - a) with (c * (zlen l - 1)) in E4 by lia. rewrite Z.rem_mul in E4 by lia. lia. }
    assert (Hq : y - x = (zlen l - 1) * Z.quot (y - x) (zlen l - 1)) by (pose proof (Z.quot_rem' (y - x) (zlen l - 1)); lia).
    set (q := Z.quot (y - x) (zlen l - 1)) in *.
    assert (Hqp : 0 < q) by nia.
    destruct (isRangeLoop l x q) eqn:E5.
    + left. exists x, (y + 1), q. split; [done|]. apply isRangeLoop_spec in E5.
      apply range_list_eq; [unfold valid_range; lia|]. rewrite E5. apply rangeL_is_range; [lia|].
      intros k Hk. unfold before. nia.
    + right. split; [done|]. intros a b c HR. destruct (Hneed a b c HR) as (Hc & -> & Hy' & Hl).
      assert (c = q) by nia. subst c. apply isRangeLoop_spec in Hl. congruence.
  - replace (x - (y - 1) - 1) with (x - y) by lia.
    destruct (Z.rem (x - y) (zlen l - 1) =? 0) eqn:E4; simpl.
    2:{ right. split; [done|]. intros a b c HR. destruct (Hneed a b c HR) as (Hc & -> & -> & _).
        replace (a - (a + (zlen l - 1) * c)) with (- c * (zlen l - 1)) in E4 by lia. rewrite Z.rem_mul in E4 by lia. lia. }
    assert (Hq : x - y = (zlen l - 1) * Z.quot (x - y) (zlen l - 1)) by (pose proof (Z.quot_rem' (x - y) (zlen l - 1)); lia).
    set (q := Z.quot (x - y) (zlen l - 1)) in *.
    assert (Hqp : 0 < q) by nia.
    destruct (isRangeLoop l x (- q)) eqn:E5.
    + left. exists x, (y - 1), (- q). split; [done|]. apply isRangeLoop_spec in E5.
      apply range_list_eq; [unfold valid_range; lia|]. rewrite E5. apply rangeL_is_range; [lia|].
      intros k Hk. unfold before. nia.
    + right. split; [done|]. intros a b c HR. destruct (Hneed a b c HR) as (Hc & -> & Hy' & Hl).
      assert (c = - q) by nia. subst c. apply isRangeLoop_spec in Hl. congruence.
Qed.
