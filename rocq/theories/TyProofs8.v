(** What a code describes. *)
From Coq Require Import QArith ZifyBool ZifyNat.
From Verif Require Import Base DataArray ArrLib StdModel StdProofs FillLib RenumSpec RenumModel RenumProofs SearchSpec SearchModel SearchProofs SetsModel PermProofs SkyModel SkyProofs SkyProofs3 IndexSpec IndexProofs3 IndexProofs4 IndexProofs6 CellTable UmModel UmSpec UmProofs UmProofs2 UmProofs3 UmProofs8 UmProofs9 UmProofs10 UcModel UcProofs3 DsProofs4 DsProofs5 TyModel TySpec TyProofs TyProofs2 TyProofs3 TyProofs4 TyProofs5 TyProofs6 TyProofs7.
Local Open Scope Z_scope.

Lemma sublist_pair (a b : list Z) p q s t : a `sublist_of` b -> p < q -> a @ p = Some s -> a @ q = Some t -> exists p' q', p' < q' /\ b @ p' = Some s /\ b @ q' = Some t.
Proof.
  intros H. revert p q. induction H as [|x a b H IH|x a b H IH]; intros p q Hpq Hp Hq; [rewrite zlook_nil in Hp; done| |].
  - pose proof (zlook_Some_lt _ _ _ Hp). rewrite zlook_cons in Hp, Hq. destruct (Z.eqb_spec q 0) as [|]; [lia|]. destruct (Z.eqb_spec p 0) as [->|].
    + injection Hp as ->. assert (Ht : t ∈ b) by (eapply elem_of_submseteq; [eapply zlook_elem; exact Hq|apply sublist_submseteq; done]). apply elem_of_zlook in Ht as [r Hr]. pose proof (zlook_Some_lt _ _ _ Hr). exists 0, (r + 1). split; [lia|]. rewrite !zlook_cons. destruct (Z.eqb_spec (r + 1) 0); [lia|]. replace (r + 1 - 1) with r by lia. done.
    + destruct (IH (p - 1) (q - 1) ltac:(lia) Hp Hq) as (p' & q' & H1 & H2 & H3). pose proof (zlook_Some_lt _ _ _ H2). pose proof (zlook_Some_lt _ _ _ H3). exists (p' + 1), (q' + 1). split; [lia|]. rewrite !zlook_cons. destruct (Z.eqb_spec (p' + 1) 0); [lia|]. destruct (Z.eqb_spec (q' + 1) 0); [lia|]. replace (p' + 1 - 1) with p' by lia. replace (q' + 1 - 1) with q' by lia. done.
  - destruct (IH p q Hpq Hp Hq) as (p' & q' & H1 & H2 & H3). pose proof (zlook_Some_lt _ _ _ H2). pose proof (zlook_Some_lt _ _ _ H3). exists (p' + 1), (q' + 1). split; [lia|]. rewrite !zlook_cons. destruct (Z.eqb_spec (p' + 1) 0); [lia|]. destruct (Z.eqb_spec (q' + 1) 0); [lia|]. replace (p' + 1 - 1) with p' by lia. replace (q' + 1 - 1) with q' by lia. done.
Qed.
Lemma sub_NoDup (a b : list Z) : a `sublist_of` b -> NoDup b -> NoDup a.
Proof.
  intros H. induction H as [|x a b H IH|x a b H IH]; [done| |]; intros Hb; apply NoDup_cons in Hb as [H1 H2]; [|auto]. apply NoDup_cons. split; [|auto]. intros Hx. apply H1. eapply elem_of_submseteq; [exact Hx|apply sublist_submseteq; done].
Qed.
Lemma sub_same (a b : list Z) : a `sublist_of` b -> length b = length a -> a = b.
Proof.
  intros H. induction H as [|x a b H IH|x a b H IH]; cbn [length]; intros E; [done|f_equal; apply IH; lia|]. apply sublist_length in H. lia.
Qed.
Lemma sub_in_order l ts : contiguous l -> ts `sublist_of` firsts l -> in_order ts l.
Proof.
  intros Hc Hsub i j s t p q Hij Hi Hj [Hp _] [Hq _]. pose proof (firsts_nodup l) as Hnd. assert (Hndt : NoDup ts) by (eapply sub_NoDup; eauto). destruct (decide (s = t)) as [->|Hne].
  - pose proof (proj1 (NoDup_zlook ts) Hndt p q t Hp Hq). lia.
  - destruct (decide (p <= q)) as [|Hgt]; [done|]. exfalso. destruct (sublist_pair _ _ q p t s Hsub ltac:(lia) Hq Hp) as (a & b & Hab & Ha & Hb). destruct (runs_pair l i j s t Hij Hi Hj Hne) as (a' & b' & Hab' & Ha' & Hb'). rewrite <- (firsts_contig l Hc) in Ha', Hb'. pose proof (proj1 (NoDup_zlook _) Hnd _ _ _ Ha Hb'). pose proof (proj1 (NoDup_zlook _) Hnd _ _ _ Hb Ha'). lia.
Qed.
Lemma run_of l t : t ∈ l -> exists pre n post, runs l = pre ++ (t, n) :: post.
Proof. intros H. apply heads_elem, elem_of_list_fmap in H as ((t' & n) & Ht & Hin). cbn [fst] in Ht. subst t'. apply elem_of_list_split in Hin as (a & b & Hab). eauto. Qed.
Lemma nth_len l t ids : contiguous l -> t ∈ l -> (forall v, v ∈ ids -> 0 <= v < number l t) -> zlen (nth_of_type l t ids) = zlen ids.
Proof. intros Hc Ht Hv. destruct (run_of l t Ht) as (pre & n & post & E). rewrite (number_run _ _ _ _ _ Hc E) in Hv. rewrite (run_nth _ _ _ _ _ _ Hc E Hv), zlen_fmap. done. Qed.
Lemma number_nonneg l t : 0 <= number l t.
Proof. unfold number. lia. Qed.
Lemma nth_all l t : contiguous l -> t ∈ l -> nth_of_type l t (seqZ 0 (number l t)) = ranks_of l t.
Proof.
  intros Hc Ht. destruct (run_of l t Ht) as (pre & n & post & E). rewrite (number_run _ _ _ _ _ Hc E). rewrite (run_nth _ _ _ _ _ _ Hc E) by (intros v Hv; apply elem_of_seqZ in Hv; lia). rewrite (run_ranks _ _ _ _ _ Hc E). apply zlook_ext. intros i. rewrite zlook_fmap, !zseq. destruct ((0 <=? i) && (i <? n)); [|done]. cbn. f_equal. lia.
Qed.
Lemma all_ranks l : contiguous l -> concat (ranks_of l <$> firsts l) = seqZ 0 (zlen l).
Proof.
  intros Hc. rewrite (firsts_contig l Hc). destruct (runs_ok l) as [He _]. rewrite <- He at 3. change (zlen (expand (runs l))) with (size (runs l)). assert (H : forall post pre, runs l = pre ++ post -> concat (ranks_of l <$> post.*1) = seqZ (size pre) (size post)).
  { induction post as [|(t, n) post IH]; intros pre E; [done|]. pose proof (run_pos _ _ _ _ _ E). rewrite !fmap_cons. cbn [concat fst]. rewrite (run_ranks _ _ _ _ _ Hc E), (IH (pre ++ [(t, n)])) by (rewrite <- app_assoc; done). change ((t, n) :: post) with ([(t, n)] ++ post). rewrite !size_app, size_one by lia. rewrite seqZ_app; [done|lia|unfold size; apply zlen_nonneg]. }
  apply (H (runs l) []). done.
Qed.
Lemma described_snoc l a t ids : described l (a ++ [(t, ids)]) = described l a ++ nth_of_type l t ids.
Proof. unfold described. rewrite fmap_app, concat_app. cbn. rewrite app_nil_r. done. Qed.

Lemma code_ok m cells code profs parts : stores m cells -> typed m cells -> is_Some (um_coords m) -> contiguous (kinds cells) ->
  describes (kinds cells) code profs parts -> parts.*1 `sublist_of` firsts (kinds cells) -> parts <> [] ->
  exists r, checkTypeConsistencyAndContig m code profs = Ok r /\ match r with None => described (kinds cells) parts = seqZ 0 (zlen cells) | Some x => x = Some <$> described (kinds cells) parts end.
Proof.
  intros Hs [Hta Hte] Hco Hc [Hcl Hcd] Hsub Hne. destruct (stores_get m cells Hs) as (conn & connI & Ec & EI & Hsky & _). apply wp_ok. set (l := kinds cells) in *. assert (Hll : zlen l = zlen cells) by apply zlen_kinds.
  assert (Hin : forall t, t ∈ um_types m <-> t ∈ l). { intros t. rewrite Hte. unfold l, kinds. rewrite elem_of_list_fmap. split; intros (c & H1 & H2); exists c; done. }
  assert (Hnd : NoDup parts.*1) by (eapply sub_NoDup; [exact Hsub|apply firsts_nodup]). pose proof (zlen_nonneg parts) as Hpn. assert (Hpz : zlen parts <> 0) by (intros H; apply SkyProofs3.zlen_0 in H; done).
  assert (Hpart : forall k, 0 <= k < zlen parts -> exists t ids, parts @ k = Some (t, ids) /\ take (Z.to_nat (k + 1)) parts = take (Z.to_nat k) parts ++ [(t, ids)] /\ parts = take (Z.to_nat k) parts ++ (t, ids) :: drop (Z.to_nat (k + 1)) parts).
  { intros k Hk. destruct (zlook_lt parts k) as [(t, ids) Hp]; [lia|]. exists t, ids. split; [done|]. split; [apply take_snoc_z; done|]. rewrite <- (take_drop (Z.to_nat (k + 1)) parts) at 1. rewrite (take_snoc_z _ _ _ Hp), <- app_assoc. done. }
  assert (Hids : forall k t ids, parts @ k = Some (t, ids) -> t ∈ l /\ zlen (nth_of_type l t ids) = zlen ids /\ forall v, v ∈ ids -> 0 <= v < number l t).
  { intros k t ids Hk. destruct (Hcd k t ids Hk) as (_ & _ & Ht & id & _ & Hd). assert (Hv : forall v, v ∈ ids -> 0 <= v < number l t) by (destruct Hd as [(_ & ->)|(_ & _ & H)]; [intros v Hv; apply elem_of_seqZ in Hv; lia|done]). split; [done|]. split; [apply nth_len; done|done]. }
  unfold checkTypeConsistencyAndContig. rewrite Hcl. destruct (Z.eqb_spec (3 * zlen parts) 0) as [|_]; [lia|]. cbn [ifthrow]. rewrite (Z.mul_comm 3), Z.quot_mul, Z.rem_mul by lia. cbn [Z.eqb negb ifthrow].
  wstep. apply (wp_forZ (fun i '(types, nb, flag) => types = (take (Z.to_nat i) parts).*1 /\ nb = zlen (described l (take (Z.to_nat i) parts)) /\ (flag = true <-> forall k id, 0 <= k < i -> code @ (3 * k + 2) = Some id -> id = -1))); [lia| | |].
  - split; [done|]. split; [done|]. split; [intros _ k id Hk; lia|done].
  - intros i [[types nb] flag] Hi (-> & -> & Hflag). destruct (Hpart i Hi) as (t & ids & Hp & Ht & Hsp). destruct (Hcd i t ids Hp) as (C0 & C1 & C2 & id & C3 & C4). destruct (Hids i t ids Hp) as (I1 & I2 & I3). unfold rd at 1. rewrite C0. cbn [bind].
    assert (Hnt : t ∉ (take (Z.to_nat i) parts).*1). { rewrite Hsp, fmap_app, fmap_cons in Hnd. apply NoDup_app in Hnd as (_ & Hd & _). intros H. apply (Hd _ H), elem_of_cons. tauto. }
    rewrite (proj2 (proj1 (findpos _ t)) Hnt), Z.eqb_refl. unfold rd at 1. rewrite C1. cbn [bind]. assert (smem t (um_types m) = true) as -> by (apply smem_spec, Hin; done). cbn [negb ifthrow]. unfold rd. rewrite C3. cbn [bind wp]. rewrite Ht, fmap_app. split; [done|]. split; [rewrite described_snoc, zlen_app; lia|]. rewrite andb_true_iff, Hflag. split.
    + intros [H1 H2] k id' Hk Hid. destruct (decide (k = i)) as [->|]; [assert (id' = id) by congruence; lia|]. apply (H1 k id' ltac:(lia) Hid).
    + intros H. split; [intros k id' Hk; apply H; lia|]. specialize (H i id ltac:(lia) C3). lia.
  - intros [[types nb] flag] (-> & -> & Hflag). rewrite (take_ge parts) by (unfold zlen; lia). cbn [bind]. rewrite zlen_fmap, Z.eqb_refl. cbn [negb ifthrow].
    assert (Hdone : exists b, (if flag then (let* b := checkConsecutiveCellTypesAndOrder m parts.*1 in throw_if negb b >>> Ok (zlen parts =? zlen (um_types m))) else Ok false) = Ok b /\ (b = true -> described l parts = seqZ 0 (zlen cells))).
    { destruct flag; [|exists false; split; [done|discriminate]]. destruct (order_ok m cells parts.*1 Hs Hco) as (b & -> & Hb). cbn [bind]. assert (b = true) as -> by (apply Hb; split; [done|apply sub_in_order; done]). cbn [negb ifthrow]. eexists. split; [reflexivity|]. intros Heq. apply Z.eqb_eq in Heq.
      assert (Hlen : zlen (firsts l) = zlen (um_types m)). { apply all_types; [apply firsts_nodup|apply asc_nodup; done|intros t Ht; apply Hin, firsts_elem; done|]. intros t Ht. apply firsts_elem, Hin. done. }
      assert (Heqs : parts.*1 = firsts l). { apply sub_same; [done|]. rewrite fmap_length. unfold zlen in *. lia. }
      rewrite <- Hll, <- (all_ranks l Hc), <- Heqs. unfold described. rewrite <- list_fmap_compose. f_equal. apply list_fmap_ext. intros k (t, ids) Hk. cbn. assert (Hk' : parts @ (Z.of_nat k) = Some (t, ids)) by (rewrite zlook_to_nat, Nat2Z.id by lia; done). destruct (Hcd _ _ _ Hk') as (_ & _ & Ht & id & Hid & Hor). pose proof (zlook_Some_lt _ _ _ Hk'). assert (id = -1) as -> by (apply (proj1 Hflag eq_refl (Z.of_nat k)); [lia|done]). destruct Hor as [[_ ->]|[Hneg _]]; [|lia]. apply nth_all; done. }
    destruct Hdone as (b & -> & Hb). cbn [bind]. destruct b; [cbn [wp]; auto|]. pose proof (zlen_nonneg (described l parts)) as Hdn. rewrite alloc_ok by lia. cbn [bind]. rewrite Z.mul_1_r. unfold unchecked. rewrite Ec, EI, (numCells_ok m cells Hs). cbn [bind].
    assert (Hle : forall k, zlen (described l (take (Z.to_nat k) parts)) <= zlen (described l parts)). { intros k. rewrite <- (take_drop (Z.to_nat k) parts) at 2. unfold described. rewrite fmap_app, concat_app, zlen_app. pose proof (zlen_nonneg (concat ((fun p => nth_of_type l p.1 p.2) <$> drop (Z.to_nat k) parts))). lia. }
    wstep. apply (wp_forZ (fun k '(ret, pos, i) => ret = (Some <$> described l (take (Z.to_nat k) parts)) ++ malloc Z (zlen (described l parts) - zlen (described l (take (Z.to_nat k) parts))) /\ pos = zlen (described l (take (Z.to_nat k) parts)) /\ exists pre post, runs l = pre ++ post /\ i = size pre /\ (drop (Z.to_nat k) parts).*1 `sublist_of` post.*1)); [lia| | |].
    + change (take (Z.to_nat 0) parts) with (@nil (Z * list Z)). split; [cbn; rewrite Z.sub_0_r; done|]. split; [done|]. exists [], (runs l). split; [done|]. split; [done|]. change (drop (Z.to_nat 0) parts) with parts. rewrite <- (firsts_contig l Hc). done.
    + intros k [[ret pos] i] Hk (-> & -> & pre & post & Er & -> & Hrest). destruct (Hpart k Hk) as (t & ids & Hp & Ht & Hsp). destruct (Hcd k t ids Hp) as (C0 & C1 & C2 & id & C3 & C4). destruct (Hids k t ids Hp) as (I1 & I2 & I3). unfold rd at 1. rewrite zlook_fmap, Hp. cbn [fmap option_fmap option_map fst bind].
      assert (Hdrop : drop (Z.to_nat k) parts = (t, ids) :: drop (Z.to_nat (k + 1)) parts). { rewrite Hsp at 1. rewrite drop_app_alt; [done|]. rewrite take_length. unfold zlen in Hk. lia. }
      rewrite Hdrop, fmap_cons in Hrest. cbn [fst] in Hrest. apply sublist_cons_l in Hrest as (k1 & k2 & Ek & Hrest). apply fmap_app_inv in Ek as (mid & rest & -> & Ek2 & ->). destruct rest as [|(t', n) rest]; [discriminate Ek2|]. rewrite fmap_cons in Ek2. cbn [fst] in Ek2. injection Ek2 as <- ->.
      assert (Er' : runs l = (pre ++ mid) ++ (t, n) :: rest) by (rewrite Er, <- app_assoc; done). pose proof (run_pos _ _ _ _ _ Er') as Hn. pose proof (run_size _ _ _ _ _ Er') as Hsz. assert (Hsp0 : 0 <= size pre <= size (pre ++ mid)) by (rewrite size_app; unfold size; pose proof (zlen_nonneg (expand pre)); pose proof (zlen_nonneg (expand mid)); lia).
      assert (findSame conn connI (size pre) (zlen cells) t = Ok (size (pre ++ mid))) as ->.
      { unfold findSame. destruct (findType_ok cells conn connI Hsky (fun x => x =? t) (size pre) (zlen cells) ltac:(lia) eq_refl) as (j & -> & Hj & F1 & F2). f_equal. assert (Hat : l @ (size (pre ++ mid)) = Some t) by (apply (run_in _ _ _ _ _ Er'); lia). assert (Hjle : j <= size (pre ++ mid)). { destruct (decide (j <= size (pre ++ mid))) as [|Hgt]; [done|]. specialize (F1 (size (pre ++ mid)) t ltac:(lia) Hat). cbv beta in F1. lia. }
        destruct (F2 ltac:(lia)) as (t' & Ht' & Heq). cbv beta in Heq. assert (t' = t) as -> by lia. pose proof (run_only _ _ _ _ _ _ Hc Er' Ht'). lia. }
      cbn [bind]. rewrite (findOther_ok _ _ _ Hsky _ _ _ _ Er'). cbn [bind]. replace (size (pre ++ mid) + n - size (pre ++ mid)) with n by lia. pose proof (number_run _ _ _ _ _ Hc Er') as Hnum. pose proof (Hle (k + 1)) as Hlek. rewrite Ht in *. rewrite described_snoc in *. rewrite zlen_app in *.
      assert (Hnth : nth_of_type l t ids = (fun v => v + size (pre ++ mid)) <$> ids) by (apply (run_nth _ _ _ _ _ _ Hc Er'); intros v Hv; rewrite <- Hnum; auto).
      assert (Hend : exists pre' post', runs l = pre' ++ post' /\ size (pre ++ mid) + n = size pre' /\ (drop (Z.to_nat (k + 1)) parts).*1 `sublist_of` post'.*1) by (exists ((pre ++ mid) ++ [(t, n)]), rest; split; [rewrite Er', <- (app_assoc (pre ++ mid) [(t, n)] rest); done|]; split; [rewrite (size_app (pre ++ mid)), size_one by lia; done|done]).
      unfold rd at 1. rewrite C3. cbn [bind]. set (A := described l (take (Z.to_nat k) parts)) in *. destruct C4 as [[-> ->]|(Hid0 & Hpf & _)].
      * cbn [Z.eqb Pos.eqb]. rewrite Hnum in *. pose proof (fill_more A (nth_of_type l t (seqZ 0 n)) (zlen (described l parts) - zlen A)) as F. rewrite I2, zlen_seqZ, Z.max_r in F by lia. rewrite F; [| rewrite I2, zlen_seqZ in Hlek; lia|].
        2:{ intros j v st Hj. rewrite Hnth, zlook_fmap, zseq in Hj. destruct ((0 <=? j) && (j <? n)); [|done]. injection Hj as <-. done. }
        cbn [bind wp]. rewrite I2, zlen_seqZ, Z.max_r by lia. split; [f_equal; f_equal; lia|]. split; [lia|done].
      * destruct (Z.eqb_spec id (-1)); [lia|]. pose proof (zlook_Some_lt _ _ _ Hpf). destruct ((id <? 0) || (zlen profs <=? id)) eqn:Eid; [lia|]. cbn [ifthrow]. unfold rd at 1. rewrite Hpf. cbn [bind].
        wstep. apply (wp_foldM _ (fun pr '(ret, pos) => ret = (Some <$> (A ++ ((fun v => v + size (pre ++ mid)) <$> pr))) ++ malloc Z (zlen (described l parts) - zlen A - zlen pr) /\ pos = zlen A + zlen pr)).
        -- change (zlen (@nil Z)) with 0. rewrite fmap_nil, app_nil_r, Z.sub_0_r, Z.add_0_r. done.
        -- intros pr v po [ret pos] Ep (-> & ->). assert (Hv : 0 <= v < n) by (rewrite <- Hnum; apply I3; rewrite Ep; apply elem_of_app; right; apply elem_of_cons; tauto). destruct ((v <? 0) || (n <=? v)) eqn:Ev; [lia|]. cbn [ifthrow]. assert (Hl3 : zlen ids = zlen pr + 1 + zlen po) by (rewrite Ep, zlen_app, zlen_cons; lia). pose proof (zlen_nonneg po). rewrite wrc_fill; [|lia|rewrite zlen_app, zlen_fmap; lia]. cbn [bind wp]. rewrite zlen_app. change (zlen [v]) with 1. split; [|lia]. rewrite (fmap_app _ pr [v]), (app_assoc A). f_equal. f_equal. lia.
        -- intros [ret pos] (-> & ->). cbn [wp]. rewrite I2, Hnth. split; [f_equal; f_equal; lia|]. split; [lia|done].
    + intros [[ret pos] i] (-> & _ & _). cbn [wp]. rewrite (take_ge parts) by (unfold zlen; lia). rewrite Z.sub_diag. change (malloc Z 0) with (@nil (option Z)). rewrite app_nil_r. done.
Qed.
