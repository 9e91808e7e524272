From Coq Require Import QArith ZifyBool ZifyNat Sorted.
From stdpp Require Import gmap.
From Verif Require Import CellModel Base DataArray ArrLib FillLib SlicesSpec SlicesModel SlicesProofs RenumSpec RenumModel RenumProofs RenumProofs2 PermProofs StdModel StdProofs SetsSpec SetsModel SetsProofs SearchSpec SearchModel SearchProofs IndexSpec IndexModel IndexProofs IndexProofs2 IndexProofs4 IndexProofs3 SkySpec SkyModel SkyProofs SkyProofs4 CellTable CellProofs5 DsProofs6 GlModel GlProofs2 UmModel UmSpec UmProofs UmProofs2 UmProofs3 UmProofs4 UmProofs8 UmProofs9 UmProofs10 MgSpec MgProofs4 GtModel GtSpec GtProofs GtProofs2 GtProofs4 GtProofs5 GtProofs6 GtProofs8.
Local Open Scope Z_scope.

(** * Permutations *)
Lemma perm_of (l : list Z) n : zlen l = n -> NoDup l -> (forall v, v ∈ l -> 0 <= v < n) -> l ≡ₚ seqZ 0 n.
Proof.
  intros Hl Hnd Hv. apply submseteq_Permutation_length_le; [unfold zlen in Hl; rewrite seqZ_length; lia|]. apply NoDup_submseteq; [done|]. intros x Hx. apply elem_of_seqZ. apply Hv in Hx. lia.
Qed.
Lemma perm_inverse (l : list Z) n : zlen l = n -> NoDup l -> (forall v, v ∈ l -> 0 <= v < n) ->
  exists n2o, invertArrayO2N2N2O (DA true 1 l) n = Ok (Some <$> n2o) /\ zlen n2o = n /\ n2o ≡ₚ seqZ 0 n /\ (forall t i, n2o @ t = Some i <-> l @ i = Some t).
Proof.
  intros Hl Hnd Hv. pose proof (perm_of l n Hl Hnd Hv) as Hperm. pose proof (zlen_nonneg l). destruct (invertO2N_ok l n ltac:(lia)) as (r & Er & Hrl & Hr & _). { intros v Hv'. right. by apply Hv. }
  change (DA true 1 l) with (vec l). rewrite Er.
  assert (Hpos : forall t, 0 <= t < n -> exists i, last_pos l t i /\ r @ t = Some (Some i)).
  { intros t Ht. assert (t ∈ l) as Hin by (rewrite Hperm; apply elem_of_seqZ; lia). apply elem_of_zlook in Hin as [i Hi]. exists i. assert (last_pos l t i) as Hlp; [|split; [done|by apply Hr]].
    split; [done|]. intros k Hk Hkl. apply zlook_Some_lt in Hi as ?. apply zlook_Some_lt in Hkl as ?. rewrite zlook_to_nat in Hi, Hkl by lia. pose proof (NoDup_lookup _ _ _ _ Hnd Hi Hkl). lia. }
  destruct (ArrLib.all_some r) as [n2o ->]. { intros t Ht. destruct (Hpos t ltac:(lia)) as (i & _ & E). eauto. }
  rewrite zlen_fmap in Hrl.
  assert (Hn2o : forall t i, n2o @ t = Some i -> l @ i = Some t). { intros t i Ht. apply zlook_Some_lt in Ht as ?. destruct (Hpos t ltac:(lia)) as (j & (Hj & _) & E). rewrite zlook_fmap, Ht in E. injection E as ->. done. }
  assert (Hback : forall t i, l @ i = Some t -> n2o @ t = Some i).
  { intros t i Ht. pose proof (Hv t (zlook_elem _ _ _ Ht)) as Htn. destruct (zlook_lt n2o t) as [j Hj]; [lia|]. pose proof (Hn2o _ _ Hj) as Hj'. apply zlook_Some_lt in Hj' as ?. apply zlook_Some_lt in Ht as ?. assert (j = i) as ->; [|done]. rewrite zlook_to_nat in Ht, Hj' by lia. pose proof (NoDup_lookup _ _ _ _ Hnd Ht Hj'). lia. }
  exists n2o. split; [done|]. split; [done|]. split; [|intros t i; split; auto].
  assert (seqZ 0 n ⊆+ n2o) as Hsub.
  - apply NoDup_submseteq; [apply NoDup_seqZ|]. intros i Hi. apply elem_of_seqZ in Hi. destruct (zlook_lt l i) as [t Ht]; [lia|]. eapply zlook_elem. by apply Hback.
  - symmetry. apply submseteq_Permutation_length_le; [|done]. unfold zlen in Hrl. rewrite seqZ_length. lia.
Qed.
Lemma perm_check (l0 : list Z) : (NoDup l0 -> exists k, CheckAndPreparePermutationRaw l0 = Ok (Some <$> k) /\ zlen k = zlen l0 /\ NoDup k /\ (forall v, v ∈ k -> 0 <= v < zlen l0) /\
    forall i j a b p q, l0 @ i = Some a -> l0 @ j = Some b -> a < b -> k @ i = Some p -> k @ j = Some q -> p < q) /\ (~ NoDup l0 -> CheckAndPreparePermutationRaw l0 = Throw).
Proof.
  pose proof (prepare_wp l0) as H. split; intros Hnd; destruct (CheckAndPreparePermutationRaw l0) as [r| | |] eqn:Ep; cbn in H; try done; try tauto. destruct H as (_ & k & -> & Hkl & Hk). exists k. split; [done|]. split; [done|].
  assert (Hsort : forall i p, k @ i = Some p -> exists a, l0 @ i = Some a /\ StdModel.sort l0 @ p = Some a).
  { intros i p Hi. pose proof (Hk i p Hi) as E. apply zlook_Some_lt in Hi as ?. destruct (zlook_lt l0 i) as [a Ha]; [lia|]. exists a. split; [done|]. congruence. }
  assert (Hslen : zlen (StdModel.sort l0) = zlen l0) by (unfold zlen; rewrite sort_perm; done).
  assert (HS : forall p q a b, StdModel.sort l0 @ p = Some a -> StdModel.sort l0 @ q = Some b -> a < b -> p < q).
  { intros p q a b Hp Hq Hab. destruct (decide (p < q)); [done|]. exfalso. apply zlook_Some_lt in Hp as ?. apply zlook_Some_lt in Hq as ?. destruct (decide (p = q)) as [->|]; [assert (a = b) by congruence; lia|].
    rewrite zlook_to_nat in Hp, Hq by lia. pose proof (SSle_lookup _ _ _ _ _ (sort_sorted l0) Hq Hp ltac:(lia)). lia. }
  split; [|split].
  - apply NoDup_alt. intros i j p Hi Hj. rewrite <- zlook_nat in Hi, Hj. destruct (Hsort _ _ Hi) as (a & Ha & Ea). destruct (Hsort _ _ Hj) as (b & Hb & Eb). assert (a = b) as -> by congruence. rewrite zlook_nat in Ha, Hb. by eapply NoDup_lookup.
  - intros v Hv. apply elem_of_zlook in Hv as [i Hi]. destruct (Hsort _ _ Hi) as (a & _ & Ea). apply zlook_Some_lt in Ea. lia.
  - intros i j a b p q Hi Hj Hab Hp Hq. destruct (Hsort _ _ Hp) as (a' & Ha' & Ea). destruct (Hsort _ _ Hq) as (b' & Hb' & Eb). eapply HS; [exact Ea|exact Eb|]. congruence.
Qed.

(** * Static *)
Lemma s_renum m cells l : s_holds m cells -> zlen l = zlen cells -> NoDup l -> (forall v, v ∈ l -> 0 <= v < zlen cells) ->
  exists m' sel, S_renumberCells m l false = Ok m' /\ s_holds m' sel /\ sg_cm m' = sg_cm m /\ sg_coords m' = sg_coords m /\ sel ≡ₚ cells /\ forall i t, l @ i = Some t -> sel @ t = cells @ i.
Proof.
  intros H Hl Hnd Hv. destruct (perm_inverse l (zlen cells) Hl Hnd Hv) as (n2o & En & Hnl & Hperm & Hn). destruct (picked_ex cells n2o) as [sel Hsel]. { intros v Hv'. rewrite Hperm in Hv'. apply elem_of_seqZ in Hv'. lia. }
  pose proof (picked_perm cells n2o sel Hsel Hperm) as Hps. pose proof (picked_len _ _ _ Hsel) as Hsl. unfold S_renumberCells, S_unchecked. rewrite (s_num m cells H), (s_conn m cells H), (s_perCell m cells H). cbn [bind]. rewrite Hl, Z.ltb_irrefl. cbn [ubif]. rewrite firstn_all2 by (unfold zlen in *; lia). rewrite En. cbn [bind].
  pose proof (s_k m cells H). pose proof (zlen_nonneg cells). rewrite (concat_same cells _ (s_len m cells H)), alloc1 by nia. cbn [bind]. rewrite part_start. rewrite (forZ_blocks _ (part_st m (zlen cells)) (zlen cells) sel ltac:(lia)).
  - cbn [bind]. rewrite (part_end m cells H) by (lia || intros d; by apply (picked_in cells n2o)). rewrite initialised_ok. cbn [bind]. eexists _, sel. split; [done|]. split; [apply (s_sub m cells H); intros d; by apply (picked_in cells n2o)|]. split; [done|]. split; [done|]. split; [done|]. intros i t Hi. apply (picked_look _ _ _ _ _ Hsel). by apply Hn.
  - intros pre c post E. assert (Hpre : forall d, d ∈ pre -> d ∈ cells). { intros d Hd. apply (picked_in cells n2o sel d Hsel). rewrite E. apply elem_of_app. by left. } rewrite E in Hsel. destruct (picked_at _ _ _ _ _ Hsel) as (w & Hw & Hc). assert ((Some <$> n2o) @ zlen pre = Some (Some w)) as Hw' by (rewrite zlook_fmap, Hw; done). rewrite (rdc_ok _ _ _ Hw'). cbn [bind]. apply zlook_Some_lt in Hw as ?. apply (part_step m cells H); [done|done|lia].
Qed.
Lemma s_renum_check m cells l0 : s_holds m cells -> zlen l0 = zlen cells ->
  (NoDup l0 -> exists m' sel, S_renumberCells m l0 true = Ok m' /\ s_holds m' sel /\ sg_cm m' = sg_cm m /\ sg_coords m' = sg_coords m /\ sel ≡ₚ cells /\
    forall i j a b p q, l0 @ i = Some a -> l0 @ j = Some b -> a < b -> cells @ i = Some p -> cells @ j = Some q -> exists s t, s < t /\ sel @ s = Some p /\ sel @ t = Some q) /\
  (~ NoDup l0 -> S_renumberCells m l0 true = Throw).
Proof.
  intros H Hl. destruct (perm_check l0) as (P1 & P2). split; intros Hnd.
  - destruct (P1 Hnd) as (k & Ek & Hkl & Hkn & Hkv & Hko). destruct (s_renum m cells k H ltac:(lia) Hkn ltac:(rewrite <- Hl; done)) as (m' & sel & E & Hs & Hc1 & Hc2 & Hp & Hsel). exists m', sel. split.
    + rewrite <- E. unfold S_renumberCells. rewrite (s_num m cells H). cbn [bind]. rewrite Hkl, Hl, Z.ltb_irrefl. cbn [ubif]. rewrite !firstn_all2 by (unfold zlen in *; lia). rewrite Ek. cbn [bind]. rewrite initialised_ok. done.
    + split; [done|]. split; [done|]. split; [done|]. split; [done|]. intros i j a b p q Hi Hj Hab Hci Hcj. apply zlook_Some_lt in Hi as ?. apply zlook_Some_lt in Hj as ?. destruct (zlook_lt k i) as [s Es]; [lia|]. destruct (zlook_lt k j) as [t Et]; [lia|]. exists s, t. split; [exact (Hko i j a b s t Hi Hj Hab Es Et)|]. rewrite (Hsel i s Es), (Hsel j t Et). done.
  - unfold S_renumberCells. rewrite (s_num m cells H). cbn [bind]. rewrite Hl, Z.ltb_irrefl. cbn [ubif]. rewrite !firstn_all2 by (unfold zlen in *; lia). rewrite (P2 Hnd). done.
Qed.

(** * Dynamic *)
Lemma lens_scatter (cells sel : list cell) l : zlen l = zlen cells -> l ≡ₚ seqZ 0 (zlen cells) -> zlen sel = zlen cells -> (forall i t, l @ i = Some t -> sel @ t = cells @ i) -> forall conni conn, (forall i c, cells @ i = Some c -> pack conn conni i c.2) ->
  forZ 0 (zlen cells) (fun i newCI => let* newPos := rd l i in let* b := rd conni (i + 1) in let* a := rd conni i in if 0 <=? b - a then wrc newCI newPos (b - a) else Throw) (malloc Z (zlen cells)) = Ok (Some <$> (zlen <$> (snd <$> sel))).
Proof.
  intros Hl Hperm Hsl Hsel conni conn Hp. set (n := zlen cells) in *. pose proof (zlen_nonneg cells).
  match goal with |- ?prog = _ => assert (W : wp prog (fun r => r = Some <$> (zlen <$> (snd <$> sel))) False) end; [|apply wp_ok in W as (r & -> & ->); done].
  apply (wp_forZ (fun i r => zlen r = n /\ forall j c, 0 <= j < i -> cells @ j = Some c -> forall t, l @ j = Some t -> r @ t = Some (Some (zlen c.2)))).
  - lia.
  - split; [rewrite zlen_malloc; lia|]. intros; lia.
  - intros i r Hi (Hr & Hinv). destruct (zlook_lt l i) as [t Ht]; [lia|]. destruct (zlook_lt cells i) as [c Hc]; [unfold n in Hi; lia|]. destruct (Hp _ _ Hc) as (a & b & Ea & Eb & B1 & B2 & B3 & B4). rewrite (rd_ok _ _ _ Ht), (rd_ok _ _ _ Eb), (rd_ok _ _ _ Ea). cbn [bind]. replace (0 <=? b - a) with true by lia.
    assert (Htr : 0 <= t < n). { assert (t ∈ seqZ 0 n) as Hin by (rewrite <- Hperm; by eapply zlook_elem). apply elem_of_seqZ in Hin. lia. } assert (L : zlen c.2 = b - a). { rewrite B4. destruct (sub_split conn a b) as (_ & _ & _ & _ & Q); [lia|lia|done]. }
    unfold wrc. rewrite wr_ok by lia. cbn. split; [by rewrite zlen_zset|]. intros j d Hj Hd u Hu. rewrite zlook_zset by lia. destruct (decide (j = i)) as [->|Hne].
    + assert (u = t) as -> by congruence. rewrite Z.eqb_refl. assert (d = c) as -> by congruence. rewrite L. done.
    + destruct (Z.eqb_spec u t) as [->|]; [|apply (Hinv j d); [lia|done|done]]. exfalso. assert (NoDup l) as Hnd by (rewrite Hperm; apply NoDup_seqZ). apply zlook_Some_lt in Hu as ?. rewrite zlook_to_nat in Hu, Ht by lia. pose proof (NoDup_lookup _ _ _ _ Hnd Hu Ht). lia.
  - intros r (Hr & Hinv). apply zlook_ext_lt; [rewrite Hr, !zlen_fmap; symmetry; exact Hsl|]. intros t Ht. assert (t ∈ l) as Hin by (rewrite Hperm; apply elem_of_seqZ; lia). apply elem_of_zlook in Hin as [i Hi]. apply zlook_Some_lt in Hi as ?. destruct (zlook_lt cells i) as [c Hc]; [unfold n in *; lia|]. rewrite (Hinv i c ltac:(lia) Hc t Hi). rewrite !zlook_fmap. pose proof (Hsel i t Hi) as Hs. rewrite Hc in Hs. unfold cell in *. rewrite Hs. done.
Qed.
Lemma psums_take {A} (ps : list (list A)) t : 0 <= t <= zlen ps -> psums (zlen <$> ps) @ t = Some (zlen (concat (take (Z.to_nat t) ps))).
Proof. intros Ht. rewrite (proj2 (psums_ok _)) by (rewrite zlen_fmap; lia). f_equal. rewrite zlen_concat, fmap_take. done. Qed.
Lemma concat_look {A} (ps : list (list A)) t p j : ps @ t = Some p -> 0 <= j < zlen p -> concat ps @ (zlen (concat (take (Z.to_nat t) ps)) + j) = p @ j.
Proof.
  intros Ht Hj. apply zlook_Some_lt in Ht as ?. rewrite zlook_to_nat in Ht by lia. pose proof (zlen_nonneg (concat (take (Z.to_nat t) ps))). rewrite <- (take_drop_middle _ _ _ Ht) at 1. rewrite concat_app. cbn [concat]. rewrite zlook_app_r by lia. rewrite zlook_app_l by lia. f_equal. lia.
Qed.
Lemma concat_room {A} (ps : list (list A)) t p : ps @ t = Some p -> zlen (concat (take (Z.to_nat t) ps)) + zlen p <= zlen (concat ps).
Proof.
  intros Ht. apply zlook_Some_lt in Ht as ?. rewrite zlook_to_nat in Ht by lia. rewrite <- (take_drop_middle _ _ _ Ht) at 2. rewrite concat_app. cbn [concat]. rewrite !zlen_app. pose proof (zlen_nonneg (concat (drop (S (Z.to_nat t)) ps))). lia.
Qed.
Lemma concat_mono {A} (ps : list (list A)) t u p : ps @ t = Some p -> t < u -> zlen (concat (take (Z.to_nat t) ps)) + zlen p <= zlen (concat (take (Z.to_nat u) ps)).
Proof.
  intros Ht Hu. apply zlook_Some_lt in Ht as ?. assert (Hx : take (Z.to_nat u) ps @ t = Some p). { rewrite zlook_take by lia. done. } pose proof (concat_room _ _ _ Hx) as Hr. rewrite take_take in Hr. replace (Z.to_nat t `min` Z.to_nat u)%nat with (Z.to_nat t) in Hr by lia. done.
Qed.
Lemma nodes_scatter (cells sel : list cell) l N : zlen l = zlen cells -> l ≡ₚ seqZ 0 (zlen cells) -> zlen sel = zlen cells -> (forall i t, l @ i = Some t -> sel @ t = cells @ i) -> zlen (concat (snd <$> sel)) = N -> forall conni conn, (forall i c, cells @ i = Some c -> pack conn conni i c.2) ->
  forZ 0 (zlen cells) (fun i newC => let* newp := rd l i in let* a := rd conni i in let* b := rd conni (i + 1) in let* q := rd (psums (zlen <$> (snd <$> sel))) newp in copyc conn a b newC q) (malloc Z N) = Ok (Some <$> concat (snd <$> sel)).
Proof.
  intros Hl Hperm Hsl Hsel HN conni conn Hp. set (n := zlen cells) in *. pose proof (zlen_nonneg cells). set (ps := snd <$> sel) in *. set (off := fun t => zlen (concat (take (Z.to_nat t) ps))). assert (Hpsl : zlen ps = n) by (unfold ps; rewrite zlen_fmap; done).
  assert (Hps : forall i t c, l @ i = Some t -> cells @ i = Some c -> ps @ t = Some c.2). { intros i t c Hi Hc. unfold ps. rewrite zlook_fmap. pose proof (Hsel i t Hi) as Hs. rewrite Hc in Hs. unfold cell in *. rewrite Hs. done. }
  match goal with |- ?prog = _ => assert (W : wp prog (fun r => r = Some <$> concat ps) False) end; [|apply wp_ok in W as (r & -> & ->); done].
  apply (wp_forZ (fun i r => zlen r = N /\ forall j c, 0 <= j < i -> cells @ j = Some c -> forall t, l @ j = Some t -> forall q, 0 <= q < zlen c.2 -> r @ (off t + q) = Some <$> (c.2 @ q))).
  - lia.
  - split; [rewrite zlen_malloc; pose proof (zlen_nonneg (concat ps)); lia|]. intros; lia.
  - intros i r Hi (Hr & Hinv). destruct (zlook_lt l i) as [t Ht]; [lia|]. destruct (zlook_lt cells i) as [c Hc]; [unfold n in Hi; lia|]. destruct (Hp _ _ Hc) as (a & b & Ea & Eb & B1 & B2 & B3 & B4).
    assert (Htr : 0 <= t < n). { assert (t ∈ seqZ 0 n) as Hin by (rewrite <- Hperm; by eapply zlook_elem). apply elem_of_seqZ in Hin. lia. } assert (L : zlen c.2 = b - a). { rewrite B4. destruct (sub_split conn a b) as (_ & _ & _ & _ & Q); [lia|lia|done]. }
    rewrite (rd_ok _ _ _ Ht), (rd_ok _ _ _ Ea), (rd_ok _ _ _ Eb). cbn [bind]. rewrite (rd_ok _ _ _ (psums_take ps t ltac:(lia))). cbn [bind]. pose proof (Hps i t c Ht Hc) as Hpt. pose proof (concat_room _ _ _ Hpt) as Hroom. apply wp_copyc; [lia|lia|lia|apply zlen_nonneg|lia|].
    intros r' Hr' Hk. split; [lia|]. intros j d Hj Hd u Hu q Hq. rewrite Hk. fold (off t). pose proof (Hps j u d Hu Hd) as Hpu. destruct (decide (j = i)) as [->|Hne].
    + assert (u = t) as -> by congruence. assert (d = c) as -> by congruence. replace (_ && _) with true by lia. f_equal. replace (a + (off t + q - off t)) with (a + q) by lia. rewrite B4. unfold sub. rewrite zlook_take by lia. rewrite zlook_drop by lia. f_equal. lia.
    + assert (u <> t). { intros ->. assert (NoDup l) as Hnd by (rewrite Hperm; apply NoDup_seqZ). apply zlook_Some_lt in Hu as ?. rewrite zlook_to_nat in Hu, Ht by lia. pose proof (NoDup_lookup _ _ _ _ Hnd Hu Ht). lia. }
      replace (_ && _) with false; [apply (Hinv j d); [lia|done|done|done]|]. unfold off. destruct (Z.lt_total u t) as [Hut|[?|Hut]]; [|lia|].
      * pose proof (concat_mono ps u t d.2 Hpu Hut). lia.
      * pose proof (concat_mono ps t u c.2 Hpt Hut). lia.
  - intros r (Hr & Hinv). apply zlook_ext_lt; [rewrite zlen_fmap; lia|]. intros x Hx. rewrite zlook_fmap. destruct (zlook_lt (concat ps) x) as [v Hv]; [lia|]. destruct (concat_pos _ _ _ Hv) as (t & p & j & Ht & Hj & Ex). apply zlook_Some_lt in Ht as ?. apply zlook_Some_lt in Hj as ?.
    assert (t ∈ l) as Hin by (rewrite Hperm; apply elem_of_seqZ; lia). apply elem_of_zlook in Hin as [i Hi]. apply zlook_Some_lt in Hi as ?. destruct (zlook_lt cells i) as [c Hc]; [unfold n in *; lia|]. pose proof (Hps i t c Hi Hc) as Hpt. assert (p = c.2) as -> by congruence. rewrite Hv, Ex. fold (off t). rewrite (Hinv i c ltac:(lia) Hc t Hi j ltac:(lia)). rewrite Hj. done.
Qed.
Lemma d_renum m cells l : d_packed m cells -> zlen l = zlen cells -> NoDup l -> (forall v, v ∈ l -> 0 <= v < zlen cells) ->
  exists m' sel, D_renumberCells m l false = Ok m' /\ d_packed m' sel /\ dg_cm m' = dg_cm m /\ dg_coords m' = dg_coords m /\ sel ≡ₚ cells /\ forall i t, l @ i = Some t -> sel @ t = cells @ i.
Proof.
  intros H Hl Hnd Hv. pose proof (packed_holds m cells H) as Hh. destruct (perm_inverse l (zlen cells) Hl Hnd Hv) as (n2o & _ & Hnl & Hperm & Hn). destruct (picked_ex cells n2o) as [sel Hsel]. { intros v Hv'. rewrite Hperm in Hv'. apply elem_of_seqZ in Hv'. lia. }
  pose proof (picked_perm cells n2o sel Hsel Hperm) as Hps. pose proof (picked_len _ _ _ Hsel) as Hsl. destruct (d_data m cells Hh) as (conn & connI & E1 & E2 & HlI & Hp & En & _ & Hu & _).
  assert (HN : zlen (concat (snd <$> sel)) = zlen conn). { destruct H as (_ & _ & _ & conn' & connI' & E1' & _ & (-> & _)). rewrite E1 in E1'. injection E1' as ->. rewrite !zlen_concat. apply zsum_Perm. by rewrite Hps. }
  assert (Hlk : forall i t, l @ i = Some t -> sel @ t = cells @ i) by (intros i t Hi; apply (picked_look _ _ _ _ _ Hsel); by apply Hn). pose proof (perm_of l _ Hl Hnd Hv) as Hlp.
  unfold D_renumberCells. rewrite En. cbn [bind]. rewrite Hl, Z.ltb_irrefl. cbn [ubif]. rewrite firstn_all2 by (unfold zlen in *; lia). cbn [bind]. rewrite Hu. pose proof (zlen_nonneg cells). pose proof (zlen_nonneg conn). rewrite alloc1 by lia. cbn [bind]. rewrite alloc1 by lia. cbn [bind].
  rewrite (lens_scatter cells sel l Hl Hlp ltac:(lia) Hlk connI conn Hp). cbn [bind]. rewrite initialised_ok. cbn [bind]. destruct (offsetsFull_ok (vec (zlen <$> (snd <$> sel))) eq_refl eq_refl) as (r & -> & Hr). apply prefix_sums_eq in Hr. cbn in Hr. rewrite Hr. cbn [bind]. rewrite initialised_ok. cbn [bind].
  rewrite (nodes_scatter cells sel l (zlen conn) Hl Hlp ltac:(lia) Hlk HN connI conn Hp). cbn [bind]. rewrite initialised_ok. cbn [bind]. eexists _, sel. split; [done|]. split; [apply (d_sub m cells Hh); [intros c; by apply (picked_in cells n2o)|apply skyline_psums]|]. done.
Qed.
Lemma d_renum_check m cells l0 : d_packed m cells -> zlen l0 = zlen cells ->
  (NoDup l0 -> exists m' sel, D_renumberCells m l0 true = Ok m' /\ d_packed m' sel /\ dg_cm m' = dg_cm m /\ dg_coords m' = dg_coords m /\ sel ≡ₚ cells /\
    forall i j a b p q, l0 @ i = Some a -> l0 @ j = Some b -> a < b -> cells @ i = Some p -> cells @ j = Some q -> exists s t, s < t /\ sel @ s = Some p /\ sel @ t = Some q) /\
  (~ NoDup l0 -> D_renumberCells m l0 true = Throw).
Proof.
  intros H Hl. destruct (d_data m cells (packed_holds m cells H)) as (conn & connI & E1 & E2 & HlI & Hp & En & _ & Hu & _). destruct (perm_check l0) as (P1 & P2). split; intros Hnd.
  - destruct (P1 Hnd) as (k & Ek & Hkl & Hkn & Hkv & Hko). destruct (d_renum m cells k H ltac:(lia) Hkn ltac:(rewrite <- Hl; done)) as (m' & sel & E & Hs & Hc1 & Hc2 & Hpm & Hsel). exists m', sel. split.
    + rewrite <- E. unfold D_renumberCells. rewrite En. cbn [bind]. rewrite Hkl, Hl, Z.ltb_irrefl. cbn [ubif]. rewrite !firstn_all2 by (unfold zlen in *; lia). rewrite Ek. cbn [bind]. rewrite initialised_ok. done.
    + split; [done|]. split; [done|]. split; [done|]. split; [done|]. intros i j a b p q Hi Hj Hab Hci Hcj. apply zlook_Some_lt in Hi as ?. apply zlook_Some_lt in Hj as ?. destruct (zlook_lt k i) as [s Es]; [lia|]. destruct (zlook_lt k j) as [t Et]; [lia|]. exists s, t. split; [exact (Hko i j a b s t Hi Hj Hab Es Et)|]. rewrite (Hsel i s Es), (Hsel j t Et). done.
  - unfold D_renumberCells. rewrite En. cbn [bind]. rewrite Hl, Z.ltb_irrefl. cbn [ubif]. rewrite !firstn_all2 by (unfold zlen in *; lia). rewrite (P2 Hnd). done.
Qed.
