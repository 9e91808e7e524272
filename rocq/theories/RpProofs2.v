(** Proofs: cells of a mesh replaced, ids given by a range. *)
From Coq Require Import QArith ZifyBool ZifyNat.
From Verif Require Import Base DataArray IndexSpec FillLib SlicesModel SlicesSpec SlicesProofs IndexModel SkyModel IndexProofs3 IndexProofs4 IndexProofs5 CellTable CellModel UmModel UmSpec UmProofs UmProofs2 UmProofs10 UcModel DgProofs5 SxProofs SxProofs3 SxProofs4 RpModel RpSpec RpProofs.
Local Open Scope Z_scope.

Section Loop.
  Context (cells news : list cell) (conn connI connO connIO : list Z) (step : Z) (H1 : skyline (pk <$> cells) conn connI) (H2 : skyline (pk <$> news) connO connIO).
  Definition sliceBody := (fun (i : Z) '(easy, it) =>
    if easy : bool then
      if (0 <=? it) && (it <? zlen cells) then
        let* s1 := rd connIO (i + 1) in let* s0 := rd connIO i in
        let* b := rd connI (it + 1) in let* a := rd connI it in
        Ok ((s1 - s0) =? (b - a), it + step)
      else Throw
    else Ok (easy, it)).
  Lemma slice_stay lo hi s : forZ lo hi sliceBody (false, s) = Ok (false, s).
  Proof. unfold forZ. generalize (seqZ lo (hi - lo)). intros l. induction l as [|i l IH]; [done|]. cbn [foldM sliceBody bind]. exact IH. Qed.
  Lemma slice_loop l : forall s v, 0 <= s -> s + zlen l <= zlen news -> (forall k i, l @ k = Some i -> i = v + k * step) ->
    match forZ s (s + zlen l) sliceBody (true, v) with Ok (e, _) => e = true -> (forall i, i ∈ l -> 0 <= i < zlen cells) /\ fits cells news s l | Throw => exists i, i ∈ l /\ ~ 0 <= i < zlen cells | _ => False end.
  Proof using H1 H2.
    induction l as [|i l IH]; intros s v Hs Hl Hv.
    - rewrite forZ_empty by (change (zlen (@nil Z)) with 0; lia). intros _. split; [intros i Hi; by apply elem_of_nil in Hi|]. intros k i c d Hk. apply zlook_Some_lt in Hk. change (zlen (@nil Z)) with 0 in Hk. lia.
    - assert (i = v) as -> by (rewrite (Hv 0 i eq_refl); lia). rewrite zlen_cons in *. pose proof (zlen_nonneg l). rewrite forZ_step by lia. cbn [sliceBody]. destruct ((0 <=? v) && (v <? zlen cells)) eqn:Ei; [|exists v; split; [left|lia]].
      destruct (zlook_lt cells v ltac:(lia)) as [d Hd]. destruct (zlook_lt news s ltac:(lia)) as [c Hc].
      destruct (read_cell cells conn connI H1 v d Hd) as (a & E1 & E2 & _). destruct (read_cell news connO connIO H2 s c Hc) as (b & F1 & F2 & _). rewrite F2. cbn [bind]. rewrite F1. cbn [bind]. rewrite E2. cbn [bind]. rewrite E1. cbn [bind].
      assert (forall k, 0 <= k -> (v :: l) @ (k + 1) = l @ k) as Hshift by (intros k Hk; rewrite !zlook_to_nat by lia; by replace (Z.to_nat (k + 1)) with (S (Z.to_nat k)) by lia).
      destruct (b + 1 + zlen c.2 - b =? a + 1 + zlen d.2 - a) eqn:Ez.
      + specialize (IH (s + 1) (v + step) ltac:(lia) ltac:(lia)). replace (s + 1 + zlen l) with (s + (zlen l + 1)) in IH by lia. replace (s + (1 + zlen l)) with (s + (zlen l + 1)) by lia.
        assert (forall k i, l @ k = Some i -> i = v + step + k * step) as Hv'. { intros k i Hk. pose proof (zlook_Some_lt _ _ _ Hk). rewrite <- Hshift in Hk by lia. rewrite (Hv _ _ Hk). lia. } specialize (IH Hv').
        destruct (forZ (s + 1) (s + (zlen l + 1)) sliceBody (true, v + step)) as [[e s']| | |]; [|destruct IH as (j & Hj & Hb); exists j; split; [by right|done]|done|done].
        intros He. destruct (IH He) as [Hr Hf]. split; [intros j Hj; apply elem_of_cons in Hj as [->|Hj]; [lia|auto]|]. intros k j c' d' Hk Hc' Hd'. pose proof (zlook_Some_lt _ _ _ Hk) as Hlt. destruct (decide (k = 0)) as [->|Hk0].
        * injection Hk as <-. rewrite Z.add_0_r in Hc'. rewrite Hc in Hc'. injection Hc' as <-. rewrite Hd in Hd'. injection Hd' as <-. lia.
        * apply (Hf (k - 1) j c' d'); [|by replace (s + 1 + (k - 1)) with (s + k) by lia|done]. rewrite <- Hshift by lia. by replace (k - 1 + 1) with k by lia.
      + rewrite slice_stay. done.
  Qed.
End Loop.
Lemma range_once start stop step ids : valid_range start stop step -> is_range_list start stop step ids -> NoDup ids.
Proof. intros (Hv & _) Hr. apply NoDup_alt. intros i j x Hi Hj. assert (ids @ Z.of_nat i = Some x) as H1 by (rewrite zlook_to_nat by lia; by rewrite Nat2Z.id). assert (ids @ Z.of_nat j = Some x) as H2 by (rewrite zlook_to_nat by lia; by rewrite Nat2Z.id). apply Hr in H1, H2. nia. Qed.
Lemma slice_gen m other cells news start stop step ids : um_dim other = um_dim m -> -1 <= um_dim m -> stores m cells -> stores other news -> valid_range start stop step -> is_range_list start stop step ids -> zlen ids = zlen news ->
  ((forall i, i ∈ ids -> 0 <= i < zlen cells) -> exists m' cells', setPartOfMySelfSlice true m start stop step other = Ok m' /\ cells_replaced cells ids news cells' /\ stores m' cells' /\ typed m' cells' /\ um_dim m' = um_dim m /\ um_coords m' = um_coords m) /\
  ((exists i, i ∈ ids /\ ~ 0 <= i < zlen cells) -> setPartOfMySelfSlice true m start stop step other = Throw).
Proof.
  intros Hdim Hd Hs Ho Hv Hrl Hl. pose proof (range_once _ _ _ _ Hv Hrl) as Hn. destruct (stores_get m cells Hs) as (conn & connI & Ec & EI & Hsky & _). destruct (stores_get other news Ho) as (connO & connIO & EcO & EIO & HskyO & HlO).
  unfold setPartOfMySelfSlice, checkConnectivityFullyDefined, getMeshDimension. rewrite Ec, EI, EcO, EIO, Hdim. cbn [negb]. unfold ifthrow at 1 2 3 4 5 6 7 8. replace (um_dim m <? -1) with false by lia. cbn [bind]. rewrite Z.eqb_refl. cbn [negb]. rewrite (count_is_len _ _ _ _ Hv Hrl). cbn [bind]. rewrite (numCells_ok other news Ho). cbn [bind]. replace (zlen ids =? zlen news) with true by lia. cbn [negb]. rewrite (numCells_ok m cells Hs). cbn [bind].
  fold (sliceBody cells connI connIO step). pose proof (slice_loop cells news conn connI connO connIO step Hsky HskyO ids 0 start ltac:(lia) ltac:(lia)) as W. rewrite Z.add_0_l in W.
  assert (forall k i, ids @ k = Some i -> i = start + k * step) as Hst by (intros k i Hk; apply Hrl in Hk; lia). specialize (W Hst).
  assert (forall k p, (pk <$> news) @ k = Some p -> pack connO connIO k p) as Hp by (intros k p; by eapply sky_pack).
  destruct (forZ 0 (zlen ids) (sliceBody cells connI connIO step) (true, start)) as [[e s]| | |]; cbn [bind]; [| |done|done].
  - split.
    + intros Hr. assert (forall cells', exists m', setConnectivity m (Some (concat (pk <$> cells'))) (Some (psums (lens cells'))) true = Ok m' /\ stores m' cells' /\ typed m' cells' /\ um_dim m' = um_dim m /\ um_coords m' = um_coords m) as Hset by (intros; apply setConn_ok).
      destruct e.
      * destruct (W eq_refl) as [_ Hf]. rewrite (same_slice _ _ _ _ _ _ _ ids Hv Hrl). destruct (@same_ok _ (pk <$> cells) conn connI connO connIO ids (pk <$> news)) as (r & res & -> & Hrep & Hsr); [done|done|by rewrite zlen_fmap| |].
        { intros k i p Hk Hpk. rewrite zlook_fmap in Hpk. destruct (news @ k) as [c|] eqn:Ek; [|done]. injection Hpk as <-. destruct (zlook_lt cells i) as [d Hd']; [apply Hr; by eapply zlook_elem|]. exists (pk d). split; [by rewrite zlook_fmap, Hd'|]. rewrite !zlen_pk. f_equal. symmetry. by apply (Hf k i c d). }
        cbn [bind]. destruct (packs_cells cells news ids res Hn Hl Hrep) as (cells' & -> & Hrc). destruct (sky_eq _ _ _ Hsr) as [-> ->]. destruct (Hset cells') as (m' & E & H). exists m', cells'. done.
      * destruct (setpart_slice_full (pk <$> cells) conn connI connO connIO start stop step ids (pk <$> news)) as (r & ri & res & -> & Hrep & Hsr); [done|done|by rewrite zlen_fmap|by rewrite zlen_fmap|done|done|].
        cbn [bind]. rewrite !init_all. cbn [bind]. destruct (packs_cells cells news ids res Hn Hl Hrep) as (cells' & -> & Hrc). destruct (sky_eq _ _ _ Hsr) as [-> ->]. destruct (Hset cells') as (m' & E & H). exists m', cells'. done.
    + intros (i & Hi & Hb). destruct e; [by destruct (W eq_refl) as [Hr _]; destruct (Hb (Hr i Hi))|]. rewrite (setpart_slice_throw (pk <$> cells) _ _ _ _ _ _ _ ids); [done|done|done|done|lia|]. exists i. by rewrite zlen_fmap.
  - split; [|done]. intros Hr. destruct W as (i & Hi & Hb). destruct (Hb (Hr i Hi)).
Qed.
Lemma slice_ok m other cells news start stop step ids : um_dim other = um_dim m -> -1 <= um_dim m -> stores m cells -> stores other news -> valid_range start stop step -> is_range_list start stop step ids -> zlen ids = zlen news -> (forall i, i ∈ ids -> 0 <= i < zlen cells) ->
  exists m' cells', setPartOfMySelfSlice true m start stop step other = Ok m' /\ cells_replaced cells ids news cells' /\ stores m' cells' /\ typed m' cells' /\ um_dim m' = um_dim m /\ um_coords m' = um_coords m.
Proof. intros H1 H2 H3 H4 H5 H6 H7. by apply slice_gen. Qed.
Lemma slice_bad m other cells news start stop step ids : um_dim other = um_dim m -> -1 <= um_dim m -> stores m cells -> stores other news -> valid_range start stop step -> is_range_list start stop step ids -> zlen ids = zlen news -> (exists i, i ∈ ids /\ ~ 0 <= i < zlen cells) ->
  setPartOfMySelfSlice true m start stop step other = Throw.
Proof. intros H1 H2 H3 H4 H5 H6 H7. by apply (slice_gen m other cells news start stop step ids). Qed.
