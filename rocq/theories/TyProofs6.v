(** Ranks inside a type, cells kept type by type. *)
From Coq Require Import QArith ZifyBool ZifyNat.
From Verif Require Import Base DataArray ArrLib StdModel StdProofs FillLib RenumSpec RenumModel RenumProofs SearchSpec SearchProofs SetsModel SkyModel SkyProofs SkyProofs3 IndexSpec IndexProofs3 IndexProofs4 IndexProofs6 CellTable UmModel UmSpec UmProofs UmProofs2 UmProofs3 UmProofs8 UmProofs9 UmProofs10 UcModel UcProofs3 DsProofs4 DsProofs5 TyModel TySpec TyProofs TyProofs2 TyProofs3 TyProofs4 TyProofs5.
Local Open Scope Z_scope.

Lemma number_occ_take l t i x : l @ i = Some x -> number (take (Z.to_nat (i + 1)) l) t = number (take (Z.to_nat i) l) t + (if x =? t then 1 else 0).
Proof. intros H. rewrite (take_snoc_z _ _ _ H). apply number_snoc. Qed.
Lemma convert_ok m cells da : stores m cells -> typed m cells -> is_Some (um_coords m) -> (forall v, v ∈ da -> 0 <= v < zlen cells) ->
  exists r, convertCellArrayPerGeoType m da = Ok r /\ Forall2 (fun v x => exists t, kinds cells @ v = Some t /\ x = rank_among (kinds cells) t v) da r.
Proof.
  intros Hs [Hta Hte] [co Eco] Hin. destruct (stores_get m cells Hs) as (conn & connI & Ec & EI & Hsky & _). unfold convertCellArrayPerGeoType, checkFullyDefined. rewrite Ec, EI, Eco, (numCells_ok m cells Hs). cbn [bind]. set (l := kinds cells). assert (Hll : zlen l = zlen cells) by apply zlen_kinds. pose proof (zlen_nonneg cells) as Hnn. apply wp_ok.
  wstep. apply (wp_foldM _ (fun pre tmp => zlen tmp = zlen cells /\ forall i t, l @ i = Some t -> t ∈ pre -> tmp @ i = Some (Some (rank_among l t i)))).
  - split; [unfold malloc; rewrite zlen_replicate; lia|]. intros i t _ H. apply elem_of_nil in H. done.
  - intros pre type post tmp E (H1 & H2). wstep. apply (wp_forZ (fun i '(tmp', j) => j = number (take (Z.to_nat i) l) type /\ zlen tmp' = zlen cells /\ (forall i t, l @ i = Some t -> t ∈ pre -> tmp' @ i = Some (Some (rank_among l t i))) /\ forall i', i' < i -> l @ i' = Some type -> tmp' @ i' = Some (Some (rank_among l type i')))); [lia| | |].
    + split; [done|]. split; [done|]. split; [done|]. intros i' Hi Hi'. apply zlook_Some_lt in Hi'. lia.
    + intros i [tmp' j] Hi (-> & K1 & K2 & K3). destruct (zlook_lt l i) as [t Ht]; [lia|]. rewrite (typeAt_ok _ _ _ Hsky _ _ Ht). cbn [bind]. rewrite (number_occ_take _ _ _ _ Ht). destruct (Z.eqb_spec t type) as [->|Hne].
      * unfold wrc. rewrite wr_ok by lia. cbn [bind wp]. split; [done|]. split; [rewrite zlen_zset; done|]. split.
        -- intros i' t' Hi' Hp. rewrite zlook_zset by lia. destruct (Z.eqb_spec i' i) as [->|]; [|eauto]. assert (t' = type) as -> by congruence. done.
        -- intros i' Hlt Hi'. rewrite zlook_zset by lia. destruct (Z.eqb_spec i' i) as [->|]; [done|]. apply K3; [lia|done].
      * cbn [wp]. split; [lia|]. split; [done|]. split; [done|]. intros i' Hlt Hi'. apply K3; [|done]. assert (i' <> i) by congruence. lia.
    + intros [tmp' j] (-> & K1 & K2 & K3). cbn [wp]. split; [done|]. intros i t Hi Ht. apply elem_of_app in Ht as [Ht|Ht]; [eauto|]. apply elem_of_list_singleton in Ht as ->. apply K3; [|done]. apply zlook_Some_lt in Hi. lia.
  - intros tmp (H1 & H2). apply (wp_foldM _ (fun pre r => Forall2 (fun v x => exists t, l @ v = Some t /\ x = rank_among l t v) pre r)); [constructor| |done].
    intros pre v post r E Hr. assert (Hv : 0 <= v < zlen cells) by (apply Hin; rewrite E; apply elem_of_app; right; apply elem_of_cons; tauto). destruct (zlook_lt l v) as [t Ht]; [lia|]. unfold rdc, rd. rewrite (H2 v t Ht). 2:{ apply Hte. pose proof (zlook_elem _ _ _ Ht) as H. unfold l, kinds in H. apply elem_of_list_fmap in H as (c & -> & Hc). exists c. done. }
    cbn [bind wp]. apply Forall2_app; [done|]. constructor; [eauto|constructor].
Qed.

(** * Runs of a contiguous mesh *)
Lemma filter_seqZ_run (p : Z -> bool) N a n : 0 <= a -> 0 <= n -> a + n <= N -> (forall i, 0 <= i < N -> p i = true <-> a <= i < a + n) -> List.filter p (seqZ 0 N) = seqZ a n.
Proof.
  intros Ha Hn HN Hp. replace N with (a + (n + (N - a - n))) by lia. rewrite !seqZ_app by lia. rewrite !List.filter_app.
  assert (Hnil : forall lo k, 0 <= lo -> lo + k <= N -> (forall i, lo <= i < lo + k -> ~ a <= i < a + n) -> List.filter p (seqZ lo k) = []).
  { intros lo k H1 H2 H3. destruct (List.filter p (seqZ lo k)) as [|x r] eqn:E; [done|]. exfalso. assert (Hx : In x (List.filter p (seqZ lo k))) by (rewrite E; left; done). apply List.filter_In in Hx as [Hx Hpx]. apply elem_of_list_In, elem_of_seqZ in Hx. apply Hp in Hpx; [|lia]. exact (H3 x ltac:(lia) Hpx). }
  rewrite (Hnil 0 a) by lia. rewrite (Hnil (0 + a + n)) by lia. rewrite app_nil_r. cbn [app]. rewrite Z.add_0_l. apply filter_all. intros x Hx. apply elem_of_seqZ in Hx. apply Hp; lia.
Qed.
Lemma run_only l pre t n post i : contiguous l -> runs l = pre ++ (t, n) :: post -> l @ i = Some t -> size pre <= i < size pre + n.
Proof.
  intros Hc E Hi. pose proof (run_pos _ _ _ _ _ E). pose proof (run_size _ _ _ _ _ E) as Hsz. destruct (decide (i < size pre)) as [Hlt|].
  - exfalso. assert (Hne : pre <> []) by (intros ->; change (size []) with 0 in Hlt; apply zlook_Some_lt in Hi; lia). destruct (run_before _ _ _ _ _ E Hne) as (x & Hx & Hxt). assert (Hin : l @ (size pre - 1) = Some t); [|congruence]. destruct (decide (i = size pre - 1)) as [->|]; [done|]. apply (Hc i _ (size pre) t); [lia|done|]. apply (run_in _ _ _ _ _ E). lia.
  - split; [lia|]. destruct (decide (size pre + n <= i)) as [Hge|]; [|lia]. exfalso. pose proof (zlook_Some_lt _ _ _ Hi). destruct (run_end _ _ _ _ _ E) as (x & Hx & Hxt); [lia|]. assert (Hin : l @ (size pre + n) = Some t); [|congruence]. destruct (decide (i = size pre + n)) as [->|]; [done|]. apply (Hc (size pre) _ i t); [lia| |done]. apply (run_in _ _ _ _ _ E). lia.
Qed.
Lemma run_ranks l pre t n post : contiguous l -> runs l = pre ++ (t, n) :: post -> ranks_of l t = seqZ (size pre) n.
Proof.
  intros Hc E. pose proof (run_pos _ _ _ _ _ E). pose proof (run_size _ _ _ _ _ E). unfold ranks_of. apply filter_seqZ_run; [lia|lia|lia|]. intros i Hi. rewrite bool_decide_eq_true. split; [eauto using run_only|apply (run_in _ _ _ _ _ E)].
Qed.
Lemma run_nth l pre t n post ids : contiguous l -> runs l = pre ++ (t, n) :: post -> (forall v, v ∈ ids -> 0 <= v < n) -> nth_of_type l t ids = (fun v => v + size pre) <$> ids.
Proof.
  intros Hc E. unfold nth_of_type. rewrite (run_ranks _ _ _ _ _ Hc E). induction ids as [|v ids IH]; [done|]. intros H. cbn [omap list_omap]. rewrite zlook_seqZ by (apply H, elem_of_cons; tauto). rewrite fmap_cons. f_equal; [lia|]. apply IH. intros w Hw. apply H, elem_of_cons. tauto.
Qed.
Lemma run_rank l pre t n post i : contiguous l -> runs l = pre ++ (t, n) :: post -> l @ i = Some t -> rank_among l t i = i - size pre.
Proof.
  intros Hc E Hi. pose proof (run_only _ _ _ _ _ _ Hc E Hi) as Hr. pose proof (run_size _ _ _ _ _ E). unfold rank_among.
  assert (H' : forall k, 0 <= k <= n -> number (take (Z.to_nat (size pre + k)) l) t = k); [|specialize (H' (i - size pre) ltac:(lia)); rewrite <- H'; f_equal; f_equal; f_equal; lia].
  intros k. assert (Hnat : forall j : nat, Z.of_nat j <= n -> number (take (Z.to_nat (size pre + Z.of_nat j)) l) t = Z.of_nat j).
  { induction j as [|j IH]; intros Hj.
    - rewrite Z.add_0_r, (run_take _ _ _ _ _ E). unfold number. rewrite (proj1 (count_occ_not_In Z.eq_dec _ _)); [done|]. intros Hin. apply elem_of_list_In in Hin. apply elem_of_zlook in Hin as [q Hq]. pose proof (zlook_Some_lt _ _ _ Hq) as Hlt. change (zlen (expand pre)) with (size pre) in Hlt. assert (l @ q = Some t) as Hlq by (rewrite (run_split _ _ _ _ _ E), zlook_app_l by (change (zlen (expand pre)) with (size pre); lia); done). pose proof (run_only _ _ _ _ _ _ Hc E Hlq). lia.
    - replace (size pre + Z.of_nat (S j)) with (size pre + Z.of_nat j + 1) by lia. rewrite (number_occ_take l t _ t); [rewrite IH by lia; rewrite Z.eqb_refl; lia|]. apply (run_in _ _ _ _ _ E). lia. }
  intros Hk. specialize (Hnat (Z.to_nat k)). rewrite Z2Nat.id in Hnat by lia. apply Hnat. lia.
Qed.

(** * keepSpecifiedCells *)
Lemma fill_more {A} (k vs : list A) m body : zlen vs <= m -> (forall j v st, vs @ j = Some v -> body j st = wrc st (zlen k + j) v) ->
  forZ 0 (zlen vs) body ((Some <$> k) ++ malloc A m) = Ok ((Some <$> (k ++ vs)) ++ malloc A (m - zlen vs)).
Proof.
  intros Hm Hb. set (st := fun pre : list A => (Some <$> (k ++ pre)) ++ malloc A (m - zlen pre)).
  replace ((Some <$> k) ++ malloc A m) with (st []) by (unfold st; rewrite app_nil_r; change (zlen (@nil A)) with 0; rewrite Z.sub_0_r; done).
  rewrite (forZ_blocks body st (zlen vs) vs eq_refl); [done|]. intros pre b post E. assert (Hl : zlen vs = zlen pre + 1 + zlen post) by (rewrite E, zlen_app, zlen_cons; lia). pose proof (zlen_nonneg post).
  rewrite (Hb _ b). 2:{ rewrite E, zlook_app_r by lia. rewrite Z.sub_diag. done. }
  unfold st. rewrite wrc_fill; [|lia|rewrite zlen_app; done]. f_equal. rewrite app_assoc. f_equal. rewrite zlen_app. change (zlen [b]) with 1. f_equal. lia.
Qed.
Section Keep.
Variables (type : Z) (ids : list Z).
Fixpoint keptIds (g : list (Z * Z)) (off : Z) : list Z :=
  match g with [] => [] | (t, n) :: r => (if t =? type then (fun v => v + off) <$> ids else seqZ off n) ++ keptIds r (off + n) end.
Lemma keptIds_snoc g t n off : (forall p, p ∈ g -> 0 <= p.2) -> keptIds (g ++ [(t, n)]) off = keptIds g off ++ (if t =? type then (fun v => v + (off + size g)) <$> ids else seqZ (off + size g) n).
Proof.
  revert off. induction g as [|(u, k) g IH]; intros off Hp.
  - cbn [app keptIds]. change (size []) with 0. rewrite Z.add_0_r, app_nil_r. done.
  - cbn [app keptIds]. rewrite IH by (intros p Hpp; apply Hp, elem_of_cons; tauto). rewrite <- app_assoc. f_equal. f_equal. change ((u, k) :: g) with ([(u, k)] ++ g). rewrite size_app, size_one by (apply (Hp (u, k)), elem_of_cons; tauto). rewrite Z.add_assoc. done.
Qed.
Lemma kept_keptIds l pre post : contiguous l -> runs l = pre ++ post -> (forall v, v ∈ ids -> 0 <= v < number l type) ->
  concat ((fun u => if u =? type then nth_of_type l u ids else ranks_of l u) <$> post.*1) = keptIds post (size pre).
Proof.
  intros Hc E Hv. revert pre E. induction post as [|(t, n) post IH]; intros pre E; [done|]. pose proof (run_pos _ _ _ _ _ E). rewrite !fmap_cons. cbn [concat fst keptIds]. f_equal.
  - destruct (Z.eqb_spec t type) as [->|]; [|eapply run_ranks; eauto]. eapply run_nth; eauto. intros v Hin. rewrite <- (number_run _ _ _ _ _ Hc E). auto.
  - rewrite (IH (pre ++ [(t, n)])) by (rewrite <- app_assoc; done). rewrite size_app, size_one by lia. done.
Qed.
End Keep.
Lemma triples_rd (g pre : list (Z * Z)) t n post : g = pre ++ (t, n) :: post -> rd (triples g) (3 * zlen pre) = Ok t /\ rd (triples g) (3 * zlen pre + 1) = Ok n.
Proof.
  intros ->. change ((t, n) :: post) with ([(t, n)] ++ post). rewrite app_assoc. unfold triples. rewrite fmap_app, concat_app. fold (triples (pre ++ [(t, n)])). rewrite triples_snoc, <- app_assoc. pose proof (triples_len pre). pose proof (zlen_nonneg pre). unfold rd. split.
  - rewrite zlook_app_r by lia. replace (3 * zlen pre - zlen (triples pre)) with 0 by lia. done.
  - rewrite zlook_app_r by lia. replace (3 * zlen pre + 1 - zlen (triples pre)) with 1 by lia. done.
Qed.
Lemma keepSpecified_wp m cells type ids : stores m cells -> typed m cells -> 0 <= um_dim m ->
  wp (keepSpecifiedCells m type ids) (fun m' => contiguous (kinds cells) /\ (forall v, v ∈ ids -> 0 <= v < number (kinds cells) type) /\ exists sel, picked cells (kept (kinds cells) type ids) sel /\ stores m' sel /\ typed m' sel /\ um_dim m' = um_dim m /\ um_coords m' = um_coords m)
    (~ (contiguous (kinds cells) /\ forall v, v ∈ ids -> 0 <= v < number (kinds cells) type)).
Proof.
  intros Hs Ht Hd. unfold keepSpecifiedCells. pose proof (distribution_wp m cells Hs Ht) as W. destruct (getDistributionOfTypes m) as [code| | |]; cbn [wp] in W; try done; [|cbn [bind wp]; tauto]. destruct W as [Hc ->]. cbn [bind]. rewrite (distribution_runs _ Hc), triples_len. rewrite (Z.mul_comm 3), Z.quot_mul by lia. set (l := kinds cells) in *. set (g := runs l).
  assert (Hnd : NoDup g.*1) by (apply contig_runs; done). assert (Hpos : forall p, p ∈ g -> 1 <= p.2) by (intros p; apply proper_nonneg, runs_ok). pose proof (zlen_nonneg g) as Hg.
  assert (Hstep : forall i, 0 <= i < zlen g -> exists t n, g = take (Z.to_nat i) g ++ (t, n) :: drop (Z.to_nat (i + 1)) g /\ take (Z.to_nat (i + 1)) g = take (Z.to_nat i) g ++ [(t, n)] /\ zlen (take (Z.to_nat i) g) = i).
  { intros i Hi. destruct (zlook_lt g i) as [(t, n) Htn]; [lia|]. exists t, n. split; [|split; [apply take_snoc_z; done|rewrite zlen_take; lia]]. rewrite <- (take_drop (Z.to_nat (i + 1)) g) at 1. rewrite (take_snoc_z _ _ _ Htn), <- app_assoc. done. }
  assert (Hgp : forall i p, p ∈ take (Z.to_nat i) g -> 0 <= p.2) by (intros i p Hp; assert (p ∈ g) as Hpg by (rewrite <- (take_drop (Z.to_nat i) g); apply elem_of_app; tauto); specialize (Hpos p Hpg); lia).
  wstep. apply (wp_forZ (fun i '(sz, szT) => (forall n, (type, n) ∈ take (Z.to_nat i) g -> szT = n) /\ (type ∉ (take (Z.to_nat i) g).*1 -> szT = 0) /\ sz + (if decide (type ∈ (take (Z.to_nat i) g).*1) then zlen ids else 0) = zlen (keptIds type ids (take (Z.to_nat i) g) 0))); [lia| | |].
  - change (take (Z.to_nat 0) g) with (@nil (Z * Z)). split; [intros n Hn; apply elem_of_nil in Hn; done|]. split; [done|]. rewrite decide_False by (intros H; apply elem_of_nil in H; done). done.
  - intros i [sz szT] Hi (K1 & K2 & K3). destruct (Hstep i Hi) as (t & n & E & E' & El). rewrite E'. destruct (triples_rd g (take (Z.to_nat i) g) t n _ E) as [R1 R2]. rewrite El in R1, R2. rewrite R1. cbn [bind]. rewrite R2. cbn [bind wp]. rewrite fmap_app. change ([(t, n)].*1) with [t]. rewrite keptIds_snoc by apply Hgp. rewrite zlen_app. rewrite Z.add_0_l.
    assert (Hnt : t ∉ (take (Z.to_nat i) g).*1). { rewrite E, fmap_app, fmap_cons in Hnd. apply NoDup_app in Hnd as (_ & Hd' & _). intros H. apply (Hd' _ H). apply elem_of_cons. tauto. }
    assert (1 <= n) by (apply (Hpos (t, n)); rewrite E; apply elem_of_app; right; apply elem_of_cons; tauto).
    destruct (Z.eqb_spec t type) as [->|Hne]; cbn [negb].
    + split; [|split].
      * intros n' Hn'. apply elem_of_app in Hn' as [Hn'|Hn']; [|apply elem_of_list_singleton in Hn'; congruence]. exfalso. apply Hnt. apply elem_of_list_fmap. exists (type, n'). done.
      * intros Hx. exfalso. apply Hx, elem_of_app. right. apply elem_of_list_singleton. done.
      * rewrite decide_False in K3 by done. rewrite decide_True by (apply elem_of_app; right; apply elem_of_list_singleton; done). rewrite zlen_fmap. lia.
    + split; [|split].
      * intros n' Hn'. apply elem_of_app in Hn' as [Hn'|Hn']; [auto|apply elem_of_list_singleton in Hn'; congruence].
      * intros Hx. apply K2. intros H'. apply Hx, elem_of_app. tauto.
      * rewrite zlen_seqZ. destruct (decide (type ∈ (take (Z.to_nat i) g).*1)) as [Hin|Hni].
        -- rewrite decide_True by (apply elem_of_app; tauto). lia.
        -- rewrite decide_False; [lia|]. intros H'. apply elem_of_app in H' as [H'|H']; [tauto|]. apply elem_of_list_singleton in H'. congruence.
  - intros [sz szT] (K1 & K2 & K3). rewrite (take_ge g) in K1, K2, K3 by (unfold zlen; lia).
    assert (Hsz : szT = number l type). { destruct (decide (type ∈ g.*1)) as [Hin|Hni]. - apply elem_of_list_fmap in Hin as ((t & n) & Htt & Hin). cbn [fst] in Htt. subst t. rewrite (K1 n Hin). apply elem_of_list_split in Hin as (a & b & Hab). symmetry. eapply number_run; eauto. - rewrite K2 by done. symmetry. unfold number. rewrite (proj1 (count_occ_not_In Z.eq_dec _ _)); [done|]. intros H. apply Hni, heads_elem, elem_of_list_In. done. }
    destruct (existsb (fun w => (w <? 0) || (szT <=? w)) ids) eqn:Eb; cbn [ifthrow].
    { cbn [wp]. intros [_ Hv]. apply existsb_exists in Eb as (w & Hw & Hb). apply elem_of_list_In in Hw. specialize (Hv w Hw). lia. }
    assert (Hv : forall v, v ∈ ids -> 0 <= v < number l type). { intros v Hin. destruct (decide (0 <= v < number l type)) as [|Hbad]; [done|]. exfalso. assert (existsb (fun w => (w <? 0) || (szT <=? w)) ids = true); [|congruence]. apply existsb_exists. exists v. split; [apply elem_of_list_In; done|lia]. }
    assert (Htot : sz + zlen ids = zlen (keptIds type ids g 0)). { destruct (decide (type ∈ g.*1)) as [Hin|Hni]; [done|]. rewrite K2 in Hsz by done. assert (ids = []) as ->; [|done]. destruct ids as [|v r]; [done|]. specialize (Hv v ltac:(apply elem_of_cons; tauto)). lia. }
    pose proof (zlen_nonneg (keptIds type ids g 0)). rewrite Htot, alloc_ok by lia. cbn [bind]. rewrite Z.mul_1_r. set (tot := keptIds type ids g 0) in *.
    assert (Hpre : forall i, zlen (keptIds type ids (take (Z.to_nat i) g) 0) <= zlen tot). { intros i. unfold tot. rewrite <- (take_drop (Z.to_nat i) g) at 2. generalize (drop (Z.to_nat i) g). generalize (take (Z.to_nat i) g). generalize 0. clear. intros off a. revert off. induction a as [|(t, n) a IH]; intros off b; [cbn [keptIds]; apply zlen_nonneg|]. cbn [app keptIds]. rewrite !zlen_app. specialize (IH (off + n) b). lia. }
    wstep. apply (wp_forZ (fun i '(r, pos, offset) => r = (Some <$> keptIds type ids (take (Z.to_nat i) g) 0) ++ malloc Z (zlen tot - zlen (keptIds type ids (take (Z.to_nat i) g) 0)) /\ pos = zlen (keptIds type ids (take (Z.to_nat i) g) 0) /\ offset = size (take (Z.to_nat i) g))); [lia| | |].
    + change (take (Z.to_nat 0) g) with (@nil (Z * Z)). split; [cbn [keptIds fmap list_fmap app]; rewrite Z.sub_0_r; done|done].
    + intros i [[r pos] off] Hi (-> & -> & ->). destruct (Hstep i Hi) as (t & n & E & E' & El). pose proof (Hpre (i + 1)) as Hle. rewrite E' in Hle. rewrite E'. destruct (triples_rd g (take (Z.to_nat i) g) t n _ E) as [R1 R2]. rewrite El in R1, R2. rewrite R1. cbn [bind]. rewrite R2. cbn [bind]. rewrite size_app, size_one by (specialize (Hpos (t, n)); rewrite E in Hpos; specialize (Hpos ltac:(apply elem_of_app; right; apply elem_of_cons; tauto)); cbn [snd] in Hpos; lia).
      assert (1 <= n) by (apply (Hpos (t, n)); rewrite E; apply elem_of_app; right; apply elem_of_cons; tauto).
      rewrite keptIds_snoc in * by apply Hgp. rewrite zlen_app in *. rewrite Z.add_0_l in *. destruct (Z.eqb_spec t type) as [->|Hne]; cbn [negb].
      * rewrite zlen_fmap in *. pose proof (fill_more (keptIds type ids (take (Z.to_nat i) g) 0) ((fun v => v + size (take (Z.to_nat i) g)) <$> ids) (zlen tot - zlen (keptIds type ids (take (Z.to_nat i) g) 0))) as F. rewrite zlen_fmap in F. rewrite F; [|lia|]. 2:{ intros j v st Hj. rewrite zlook_fmap in Hj. unfold rd. destruct (ids @ j) as [w|]; [|done]. injection Hj as <-. cbn [bind]. done. }
        cbn [bind wp]. split; [f_equal; f_equal; lia|]. split; lia.
      * rewrite zlen_seqZ in Hle. pose proof (fill_more (keptIds type ids (take (Z.to_nat i) g) 0) (seqZ (size (take (Z.to_nat i) g)) n) (zlen tot - zlen (keptIds type ids (take (Z.to_nat i) g) 0))) as F. rewrite zlen_seqZ, Z.max_r in F by lia. rewrite F; [|lia|]. 2:{ intros j v st Hj. rewrite zseq in Hj. destruct ((0 <=? j) && (j <? n)); [|done]. injection Hj as <-. done. }
        cbn [bind wp]. rewrite zlen_seqZ. split; [f_equal; f_equal; lia|]. split; lia.
    + intros [[r pos] off] (-> & _ & _). rewrite (take_ge g) by (unfold zlen; lia). fold tot. rewrite Z.sub_diag. change (malloc Z 0) with (@nil (option Z)). rewrite app_nil_r. rewrite initialised_ok. cbn [bind].
      assert (Hk : tot = kept l type ids). { unfold tot, kept. rewrite (firsts_contig _ Hc). symmetry. change 0 with (size []). apply (kept_keptIds type ids l []); done. }
      rewrite Hk. assert (Hin : forall v, v ∈ kept l type ids -> 0 <= v < zlen cells). { intros v Hv'. rewrite <- (zlen_kinds cells). fold l. unfold kept in Hv'. apply elem_concat' in Hv' as (a & Ha & Hva). apply elem_of_list_fmap in Ha as (u & -> & Hu). assert (Hr : v ∈ ranks_of l u). { destruct (Z.eqb_spec u type) as [->|]; [|done]. unfold nth_of_type in Hva. apply elem_of_list_omap in Hva as (w & _ & Hw). eapply zlook_elem. exact Hw. } unfold ranks_of in Hr. apply elem_of_list_In, List.filter_In in Hr as [Hr _]. apply elem_of_list_In, elem_of_seqZ in Hr. lia. }
      destruct (picked_ex cells (kept l type ids)) as [sel Hsel]; [done|]. destruct (part0_ok m cells _ sel Hs Hd Hsel) as (m' & -> & Q1 & Q2 & Q3 & Q4). cbn [wp]. split; [done|]. split; [done|]. exists sel. done.
Qed.
