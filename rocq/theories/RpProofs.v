(** Proofs: cells of a mesh replaced. *)
From Coq Require Import QArith ZifyBool ZifyNat.
From Verif Require Import Base DataArray IndexSpec FillLib IndexModel SkyModel IndexProofs3 IndexProofs4 IndexProofs5 CellTable CellModel UmModel UmSpec UmProofs UmProofs2 UmProofs10 UcModel DgProofs5 SxProofs SxProofs3 SxProofs4 RpModel RpSpec.
Local Open Scope Z_scope.

Lemma init_all {A} (l : list A) : initialised (Some <$> l) = Ok l.
Proof.
  unfold initialised. assert (forallb (fun x : option A => match x with Some _ => true | None => false end) (Some <$> l) = true) as -> by (apply forallb_forall; intros x Hx%elem_of_list_In; apply elem_of_list_fmap in Hx as (y & -> & _); done).
  f_equal. induction l as [|x l IH]; [done|]. rewrite fmap_cons. cbn. by f_equal.
Qed.
Definition unpk (p : list Z) : cell := match p with [] => (0, []) | t :: l => (t, l) end.
Lemma unpk_pk c : unpk (pk c) = c.
Proof. by destruct c. Qed.
Lemma elem_look {A} (l : list A) x : x ∈ l -> exists k, l @ k = Some x.
Proof. intros (k & Hk)%elem_of_list_lookup. exists (Z.of_nat k). rewrite zlook_to_nat by lia. by rewrite Nat2Z.id. Qed.
Lemma nodup_look (l : list Z) k k' x : NoDup l -> l @ k = Some x -> l @ k' = Some x -> k = k'.
Proof. intros Hn H1 H2. pose proof (zlook_Some_lt _ _ _ H1). pose proof (zlook_Some_lt _ _ _ H2). rewrite zlook_to_nat in H1, H2 by lia. pose proof (NoDup_lookup _ _ _ _ Hn H1 H2). lia. Qed.
Lemma packs_cells (cells news : list cell) ids res : NoDup ids -> zlen ids = zlen news -> packs_replaced (pk <$> cells) ids (pk <$> news) res -> exists cells', res = pk <$> cells' /\ cells_replaced cells ids news cells'.
Proof.
  intros Hn Hl (Hz & Hin & Hout). rewrite zlen_fmap in Hz.
  assert (forall k i, ids @ k = Some i -> exists c, news @ k = Some c /\ res @ i = Some (pk c)) as Hin'.
  { intros k i Hk. pose proof (zlook_Some_lt _ _ _ Hk). destruct (zlook_lt news k ltac:(lia)) as [c Hc]. exists c. split; [done|]. apply (Hin i k); [done| |by rewrite zlook_fmap, Hc]. intros k' Hlt Hk'. pose proof (nodup_look _ _ _ _ Hn Hk Hk'). lia. }
  assert (Hres : forall i p, res @ i = Some p -> p = pk (unpk p)).
  { intros i p Hp. destruct (decide (i ∈ ids)) as [Hi|Hi].
    - destruct (elem_look _ _ Hi) as [k Hk]. destruct (Hin' k i Hk) as (c & _ & E). rewrite Hp in E. injection E as ->. by rewrite unpk_pk.
    - rewrite (Hout i Hi), zlook_fmap in Hp. destruct (cells @ i) as [c|]; [|done]. cbn in Hp. injection Hp as <-. by rewrite unpk_pk. }
  exists (unpk <$> res). split.
  - rewrite <- list_fmap_compose. apply zlook_ext_lt; [by rewrite zlen_fmap|]. intros i Hi. destruct (zlook_lt res i ltac:(lia)) as [p Hp]. rewrite zlook_fmap, Hp. cbn. f_equal. unfold compose. by eapply Hres.
  - split; [by rewrite zlen_fmap|]. split.
    + intros k i Hk. destruct (Hin' k i Hk) as (c & -> & E). rewrite zlook_fmap, E. by destruct c.
    + intros i Hi. rewrite zlook_fmap, (Hout i Hi), zlook_fmap. destruct (cells @ i) as [c|]; [|done]. by destruct c.
Qed.

Section Loop.
  Context (cells news : list cell) (conn connI connO connIO : list Z) (H1 : skyline (pk <$> cells) conn connI) (H2 : skyline (pk <$> news) connO connIO).
  Definition easyBody := (fun '(easy, s) it =>
    if easy : bool then
      if (0 <=? it) && (it <? zlen cells) then
        let* s1 := rd connIO (s + 1) in let* s0 := rd connIO s in
        let* b := rd connI (it + 1) in let* a := rd connI it in
        Ok ((s1 - s0) =? (b - a), s + 1)
      else Throw
    else Ok (easy, s)).
  Lemma stay l s : foldM easyBody l (false, s) = Ok (false, s).
  Proof. induction l as [|i l IH]; [done|]. cbn [foldM easyBody bind]. exact IH. Qed.
  Definition fits (s : Z) (l : list Z) : Prop := forall k i c d, l @ k = Some i -> news @ (s + k) = Some c -> cells @ i = Some d -> zlen c.2 = zlen d.2.
  Lemma loop_ok l : forall s, 0 <= s -> s + zlen l <= zlen news ->
    match foldM easyBody l (true, s) with Ok (e, _) => e = true -> (forall i, i ∈ l -> 0 <= i < zlen cells) /\ fits s l | Throw => exists i, i ∈ l /\ ~ 0 <= i < zlen cells | _ => False end.
  Proof using H1 H2.
    induction l as [|i l IH]; intros s Hs Hl.
    - cbn. intros _. split; [intros i Hi; by apply elem_of_nil in Hi|]. intros k i c d Hk. apply zlook_Some_lt in Hk. change (zlen (@nil Z)) with 0 in Hk. lia.
    - rewrite zlen_cons in Hl. pose proof (zlen_nonneg l). cbn [foldM easyBody]. destruct ((0 <=? i) && (i <? zlen cells)) eqn:Ei; [|exists i; split; [left|lia]].
      destruct (zlook_lt cells i ltac:(lia)) as [d Hd]. destruct (zlook_lt news s ltac:(lia)) as [c Hc].
      destruct (read_cell cells conn connI H1 i d Hd) as (a & E1 & E2 & _). destruct (read_cell news connO connIO H2 s c Hc) as (b & F1 & F2 & _). rewrite F2. cbn [bind]. rewrite F1. cbn [bind]. rewrite E2. cbn [bind]. rewrite E1. cbn [bind].
      destruct (b + 1 + zlen c.2 - b =? a + 1 + zlen d.2 - a) eqn:Ez.
      + specialize (IH (s + 1) ltac:(lia) ltac:(lia)). destruct (foldM easyBody l (true, s + 1)) as [[e s']| | |]; [|destruct IH as (j & Hj & Hb); exists j; split; [by right|done]|done|done].
        intros He. destruct (IH He) as [Hr Hf]. split; [intros j Hj; apply elem_of_cons in Hj as [->|Hj]; [lia|auto]|]. intros k j c' d' Hk Hc' Hd'. pose proof (zlook_Some_lt _ _ _ Hk) as Hlt. destruct (decide (k = 0)) as [->|Hk0].
        * injection Hk as <-. rewrite Z.add_0_r in Hc'. rewrite Hc in Hc'. injection Hc' as <-. rewrite Hd in Hd'. injection Hd' as <-. lia.
        * apply (Hf (k - 1) j c' d'); [|by replace (s + 1 + (k - 1)) with (s + k) by lia|done]. rewrite zlook_to_nat in Hk |- * by lia. replace (Z.to_nat k) with (S (Z.to_nat (k - 1))) in Hk by lia. exact Hk.
      + rewrite stay. done.
  Qed.
End Loop.
Lemma replace_gen m other cells news ids : um_dim other = um_dim m -> -1 <= um_dim m -> stores m cells -> stores other news -> zlen ids = zlen news ->
  (NoDup ids -> (forall i, i ∈ ids -> 0 <= i < zlen cells) -> exists m' cells', setPartOfMySelf true m ids other = Ok m' /\ cells_replaced cells ids news cells' /\ stores m' cells' /\ typed m' cells' /\ um_dim m' = um_dim m /\ um_coords m' = um_coords m) /\
  ((exists i, i ∈ ids /\ ~ 0 <= i < zlen cells) -> setPartOfMySelf true m ids other = Throw).
Proof.
  intros Hdim Hd Hs Ho Hl. destruct (stores_get m cells Hs) as (conn & connI & Ec & EI & Hsky & _). destruct (stores_get other news Ho) as (connO & connIO & EcO & EIO & HskyO & HlO).
  unfold setPartOfMySelf, checkConnectivityFullyDefined, getMeshDimension. rewrite Ec, EI, EcO, EIO, Hdim. cbn [negb]. unfold ifthrow at 1 2 3 4 5 6 7 8. replace (um_dim m <? -1) with false by lia. cbn [bind]. rewrite Z.eqb_refl. cbn [negb]. rewrite (numCells_ok other news Ho). cbn [bind]. rewrite Hl, Z.eqb_refl. cbn [negb]. rewrite (numCells_ok m cells Hs). cbn [bind].
  fold (easyBody cells connI connIO). pose proof (loop_ok cells news conn connI connO connIO Hsky HskyO ids 0 ltac:(lia) ltac:(lia)) as W.
  assert (forall k p, (pk <$> news) @ k = Some p -> pack connO connIO k p) as Hp by (intros k p; by eapply sky_pack).
  destruct (foldM (easyBody cells connI connIO) ids (true, 0)) as [[e s]| | |]; cbn [bind]; [| |done|done].
  - split.
    + intros Hn Hr. assert (forall cells', exists m', setConnectivity m (Some (concat (pk <$> cells'))) (Some (psums (lens cells'))) true = Ok m' /\ stores m' cells' /\ typed m' cells' /\ um_dim m' = um_dim m /\ um_coords m' = um_coords m) as Hset by (intros; apply setConn_ok).
      destruct e.
      * destruct (W eq_refl) as [_ Hf]. destruct (@same_ok _ (pk <$> cells) conn connI connO connIO ids (pk <$> news)) as (r & res & -> & Hrep & Hsr); [done|done|by rewrite zlen_fmap| |].
        { intros k i p Hk Hpk. rewrite zlook_fmap in Hpk. destruct (news @ k) as [c|] eqn:Ek; [|done]. injection Hpk as <-. destruct (zlook_lt cells i) as [d Hd']; [apply Hr; by eapply zlook_elem|]. exists (pk d). split; [by rewrite zlook_fmap, Hd'|]. rewrite !zlen_pk. f_equal. symmetry. by apply (Hf k i c d). }
        cbn [bind]. destruct (packs_cells cells news ids res Hn Hl Hrep) as (cells' & -> & Hrc). destruct (sky_eq _ _ _ Hsr) as [-> ->]. destruct (Hset cells') as (m' & E & H). exists m', cells'. done.
      * destruct (setpart_full (pk <$> cells) conn connI connO connIO ids (pk <$> news)) as (r & ri & res & -> & Hrep & Hsr); [done|done|by rewrite zlen_fmap|by rewrite zlen_fmap|done|].
        cbn [bind]. rewrite !init_all. cbn [bind]. destruct (packs_cells cells news ids res Hn Hl Hrep) as (cells' & -> & Hrc). destruct (sky_eq _ _ _ Hsr) as [-> ->]. destruct (Hset cells') as (m' & E & H). exists m', cells'. done.
    + intros (i & Hi & Hb). destruct e; [by destruct (W eq_refl) as [Hr _]; destruct (Hb (Hr i Hi))|]. rewrite (setpart_throw (pk <$> cells)); [done|done|lia|]. exists i. by rewrite zlen_fmap.
  - split; [|done]. intros _ Hr. destruct W as (i & Hi & Hb). destruct (Hb (Hr i Hi)).
Qed.
Lemma replace_ok m other cells news ids : um_dim other = um_dim m -> -1 <= um_dim m -> stores m cells -> stores other news -> zlen ids = zlen news -> NoDup ids -> (forall i, i ∈ ids -> 0 <= i < zlen cells) ->
  exists m' cells', setPartOfMySelf true m ids other = Ok m' /\ cells_replaced cells ids news cells' /\ stores m' cells' /\ typed m' cells' /\ um_dim m' = um_dim m /\ um_coords m' = um_coords m.
Proof. intros H1 H2 H3 H4 H5. by apply replace_gen. Qed.
Lemma replace_bad same m other cells news ids : -1 <= um_dim m -> -1 <= um_dim other -> stores m cells -> stores other news -> same = false \/ um_dim other <> um_dim m \/ zlen ids <> zlen news \/ (exists i, i ∈ ids /\ ~ 0 <= i < zlen cells) ->
  setPartOfMySelf same m ids other = Throw.
Proof.
  intros Hd HdO Hs Ho H. destruct same; [destruct (decide (um_dim other = um_dim m)) as [E|E]; [destruct (decide (zlen ids = zlen news)) as [E2|E2]|]|].
  - apply (replace_gen m other cells news ids); try done. naive_solver.
  - destruct (stores_get m cells Hs) as (conn & connI & Ec & EI & _). destruct (stores_get other news Ho) as (connO & connIO & EcO & EIO & _). unfold setPartOfMySelf, checkConnectivityFullyDefined, getMeshDimension. rewrite Ec, EI, EcO, EIO, E. unfold ifthrow. cbn [negb]. replace (um_dim m <? -1) with false by lia. cbn [bind]. rewrite Z.eqb_refl. cbn [negb]. rewrite (numCells_ok other news Ho). cbn [bind]. by replace (zlen ids =? zlen news) with false by lia.
  - destruct (stores_get m cells Hs) as (conn & connI & Ec & EI & _). destruct (stores_get other news Ho) as (connO & connIO & EcO & EIO & _). unfold setPartOfMySelf, checkConnectivityFullyDefined, getMeshDimension. rewrite Ec, EI, EcO, EIO. unfold ifthrow. cbn [negb]. replace (um_dim m <? -1) with false by lia. replace (um_dim other <? -1) with false by lia. cbn [bind]. by replace (um_dim m =? um_dim other) with false by lia.
  - destruct (stores_get m cells Hs) as (conn & connI & Ec & EI & _). destruct (stores_get other news Ho) as (connO & connIO & EcO & EIO & _). unfold setPartOfMySelf, checkConnectivityFullyDefined. by rewrite Ec, EI, EcO, EIO.
Qed.
