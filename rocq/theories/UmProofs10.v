From Coq Require Import QArith ZifyBool ZifyNat.
From stdpp Require Import gmap.
From Verif Require Import Base DataArray ArrLib FillLib RenumModel RenumSpec RenumProofs RenumProofs2 SlicesModel SlicesSpec SlicesProofs SetsModel SetsSpec StdModel StdProofs SetsProofs PermProofs IndexModel IndexSpec IndexProofs2 IndexProofs3 IndexProofs4 IndexProofs6 SkyModel SkyProofs CellTable UmModel UmSpec UmProofs UmProofs2 UmProofs3 UmProofs4 UmProofs5 UmProofs9.
Local Open Scope Z_scope.

(** * Selection of cells *)
Lemma forZ_stop {B S} (body : Z -> S -> res S) (st : list B -> S) n bs : zlen bs < n ->
  (forall pre b post, bs = pre ++ b :: post -> body (zlen pre) (st pre) = Ok (st (pre ++ [b]))) -> body (zlen bs) (st bs) = Throw -> forZ 0 n body (st []) = Throw.
Proof.
  intros Hn Hs Ht. assert (W : wp (forZ 0 n body (st [])) (fun _ => False) True).
  { apply (wp_forZ (fun i s => i <= zlen bs /\ s = st (take (Z.to_nat i) bs))).
    - pose proof (zlen_nonneg bs). lia.
    - split; [apply zlen_nonneg|done].
    - intros i s Hi (Hle & ->). destruct (decide (i = zlen bs)) as [->|N].
      + unfold zlen at 2. rewrite Nat2Z.id, firstn_all. unfold zlen in Ht |- *. rewrite Ht. done.
      + destruct (zlook_lt bs i ltac:(lia)) as [b Hb]. assert (E : bs = take (Z.to_nat i) bs ++ b :: drop (Datatypes.S (Z.to_nat i)) bs).
        { rewrite take_drop_middle; [done|]. rewrite <- Hb. unfold zlook. replace (i <? 0) with false by lia. done. }
        pose proof (Hs _ _ _ E) as H. rewrite zlen_take in H. replace (Z.min (Z.of_nat (Z.to_nat i)) (zlen bs)) with i in H by lia. rewrite H. simpl. split; [lia|]. rewrite (take_succ bs i b Hb). done.
    - intros s (Hle & _). lia. }
  destruct (forZ _ _ _ _); cbn in W; done.
Qed.
Lemma first_bad (ids : list Z) n : (exists v, v ∈ ids /\ ~ 0 <= v < n) -> exists pre v post, ids = pre ++ v :: post /\ ~ 0 <= v < n /\ forall w, w ∈ pre -> 0 <= w < n.
Proof.
  induction ids as [|x ids IH]; intros (v & Hv & Hb); [inversion Hv|]. destruct (decide (0 <= x < n)) as [Hx|Hx].
  - apply elem_of_cons in Hv as [->|Hv]; [done|]. destruct IH as (pre & w & post & -> & Hw & Hp); [eauto|]. exists (x :: pre), w, post. split; [done|]. split; [done|]. intros y [->|Hy]%elem_of_cons; [done|by apply Hp].
  - exists [], x, ids. split; [done|]. split; [done|]. intros w Hw. inversion Hw.
Qed.
Lemma picked_ex (cells : list cell) ids : (forall v, v ∈ ids -> 0 <= v < zlen cells) -> exists sel, picked cells ids sel.
Proof.
  induction ids as [|x ids IH]; intros H; [exists []; constructor|]. destruct (zlook_lt cells x) as [c Hc]; [apply H; left|]. destruct IH as [sel Hsel]; [intros v Hv; apply H; by right|]. exists (c :: sel). constructor; done.
Qed.
Lemma picked_len cells ids sel : picked cells ids sel -> zlen sel = zlen ids.
Proof. intros H. unfold zlen. f_equal. symmetry. by eapply Forall2_length. Qed.
Lemma picked_at cells ids pre c post : picked cells ids (pre ++ c :: post) -> exists w, ids @ zlen pre = Some w /\ cells @ w = Some c.
Proof.
  intros H. apply Forall2_app_inv_r in H as (l1 & l2 & H1 & H2 & ->). inversion H2 as [|w ? l2' ? Hw H3]; subst. exists w. split; [|done].
  assert (zlen pre = zlen l1) as -> by (unfold zlen; f_equal; symmetry; by eapply Forall2_length). rewrite zlook_app_r by lia. rewrite Z.sub_diag. done.
Qed.
Definition lens (sel : list cell) : list Z := zlen <$> (pk <$> sel).
Lemma lens_len sel : zlen (lens sel) = zlen sel.
Proof. unfold lens. by rewrite !zlen_fmap. Qed.
Lemma lens_snoc sel (c : cell) : lens (sel ++ [c]) = lens sel ++ [1 + zlen c.2].
Proof. unfold lens. rewrite !fmap_app. rewrite !fmap_cons. rewrite zlen_pk. done. Qed.
Lemma iost_rd' n sel : rdc (iost n (lens sel)) (zlen sel) = Ok (zsum (lens sel)).
Proof. rewrite <- lens_len. apply iost_rd. Qed.
Definition typesOf (sel : list cell) : list Z := foldl (fun l (c : cell) => insertType c.1 l) [] sel.
Lemma typesOf_snoc sel c : typesOf (sel ++ [c]) = insertType c.1 (typesOf sel).
Proof. unfold typesOf. by rewrite foldl_app. Qed.
Lemma typesOf_ok sel : ascending (typesOf sel) /\ forall t, t ∈ typesOf sel <-> exists c, c ∈ sel /\ c.1 = t.
Proof.
  induction sel as [|c sel (IH1 & IH2)] using rev_ind; [split; [done|]; intros t; split; [intros H; inversion H|intros (c & Hc & _); inversion Hc]|].
  rewrite typesOf_snoc. split; [by apply insertType_asc|]. intros t. rewrite insertType_elem, IH2. split.
  - intros [->|(d & Hd & E)]; [exists c; split; [apply elem_of_app; right; left|done]|exists d; split; [apply elem_of_app; by left|done]].
  - intros (d & [Hd|Hd%elem_of_list_singleton]%elem_of_app & E); [right; eauto|left; by subst].
Qed.
Lemma sub_pk P c R a : zlen P = a -> sub (P ++ pk c ++ R) a (a + 1 + zlen c.2) = pk c.
Proof. intros <-. unfold sub. replace (Z.to_nat (zlen P)) with (length P) by (unfold zlen; lia). rewrite drop_app. rewrite take_app_alt; [done|]. pose proof (zlen_pk c). unfold zlen in *. lia. Qed.
Section Sel.
Context (cells : list cell) (conn connI : list Z).
Hypothesis Hsky : skyline (pk <$> cells) conn connI.
(** The fill of the connectivity. *)
Lemma fill_one M (pre : list cell) (c : cell) w : cells @ w = Some c -> zsum (lens pre) + 1 + zlen c.2 <= M ->
  exists a, rd connI w = Ok a /\ rd connI (w + 1) = Ok (a + 1 + zlen c.2) /\ rd conn a = Ok c.1 /\ copyc conn a (a + 1 + zlen c.2) (ost M (pk <$> pre)) (zsum (lens pre)) = Ok (ost M (pk <$> (pre ++ [c]))).
Proof.
  intros Hc HM. destruct (cell_at cells conn connI w c Hsky Hc) as (a & E1 & E2 & Ha & Hb & P & R & EP & HP). exists a. split; [by apply rd_ok|]. split; [by apply rd_ok|].
  pose proof (zlen_nonneg c.2). split.
  - apply rd_ok. rewrite EP, zlook_app_r by lia. rewrite HP, Z.sub_diag. done.
  - assert (zlen (concat (pk <$> pre)) = zsum (lens pre)) as El by apply zsum_pre. rewrite ost_copy by lia. assert (sub conn a (a + 1 + zlen c.2) = pk c) as -> by (rewrite EP; apply (sub_pk P c R a HP)). rewrite fmap_app. done.
Qed.
Lemma sel_bound (pre : list cell) (c : cell) post : zsum (lens pre) + 1 + zlen c.2 <= zsum (lens (pre ++ c :: post)).
Proof. unfold lens. rewrite <- !zsum_pre. rewrite fmap_app, fmap_cons. rewrite zlen_pre. rewrite zlen_pk. pose proof (zlen_nonneg (concat (pk <$> post))). lia. Qed.
Lemma sum_nonneg sel : 0 <= zsum (lens sel).
Proof. unfold lens. rewrite <- zsum_pre. apply zlen_nonneg. Qed.
End Sel.
Lemma typed_types d co c i ty sel : ty = typesOf sel -> typed (UM d co c i ty) sel.
Proof. intros ->. apply typesOf_ok. Qed.
Lemma stores_sel d co sel ty : stores (UM d co (Some (concat (pk <$> sel))) (Some (psums (lens sel))) ty) sel.
Proof. eexists _, _. split; [reflexivity|]. split; [reflexivity|]. apply (skyline_psums (pk <$> sel)). Qed.

Lemma part_ok m cells ids sel : stores m cells -> picked cells ids sel ->
  exists m', buildPartOfMySelfKeepCoords m ids = Ok m' /\ stores m' sel /\ typed m' sel /\ um_dim m' = um_dim m /\ um_coords m' = um_coords m.
Proof.
  intros Hs Hp. destruct (stores_get m cells Hs) as (conn & connI & Ec & EI & Hsky & _). unfold buildPartOfMySelfKeepCoords, checkConnectivityFullyDefined. rewrite Ec, EI, (numCells_ok m cells Hs). cbn [bind].
  pose proof (zlen_nonneg ids). pose proof (picked_len _ _ _ Hp) as Hl. rewrite iost_start by lia. cbn [bind].
  rewrite (forZ_blocks _ (fun pre : list cell => iost (zlen ids) (lens pre)) (zlen ids) sel Hl).
  2:{ intros pre c post E. rewrite E in Hp. destruct (picked_at _ _ _ _ _ Hp) as (w & Hw & Hc). rewrite (rd_ok _ _ _ Hw). cbn [bind]. apply zlook_Some_lt in Hc as ?. apply zlook_Some_lt in Hw as ?.
      replace ((0 <=? w) && _) with true by lia. rewrite iost_rd'. cbn [bind]. destruct (cell_at cells conn connI w c Hsky Hc) as (a & E1 & E2 & _). rewrite (rd_ok _ _ _ E2). cbn [bind]. rewrite (rd_ok _ _ _ E1). cbn [bind].
      rewrite (iost_wr _ _ (1 + zlen c.2)) by (rewrite ?lens_len; lia). rewrite lens_snoc. done. }
  cbn [bind]. rewrite <- Hl, iost_rd'. cbn [bind]. pose proof (sum_nonneg sel). replace (_ <? 0) with false by lia. cbn [ubif]. rewrite Hl.
  set (M := zsum (lens sel)). set (st := fun pre : list cell => (typesOf pre, ost M (pk <$> pre), zsum (lens pre))).
  change ([], malloc Z M, 0) with ([] : list Z, malloc Z M, zsum (lens [])). rewrite ost_start. change ([] : list Z, ost M [], zsum (lens [])) with (st []). rewrite (forZ_blocks _ st (zlen ids) sel Hl).
  2:{ intros pre c post E. unfold st. rewrite E in Hp. destruct (picked_at _ _ _ _ _ Hp) as (w & Hw & Hc). rewrite (rd_ok _ _ _ Hw). cbn [bind].
      destruct (fill_one cells conn connI Hsky M pre c w Hc) as (a & -> & -> & Et & Ecp). { unfold M. rewrite E. apply sel_bound. }
      cbn [bind]. rewrite Et. cbn [bind]. rewrite Ecp. cbn [bind]. rewrite typesOf_snoc, lens_snoc. do 3 f_equal. unfold zsum. rewrite foldr_app. cbn [foldr]. clear. induction (lens pre); cbn [foldr]; lia. }
  unfold st. cbn [bind]. rewrite ost_end by (unfold M, lens; rewrite zsum_pre; done). rewrite initialised_ok. cbn [bind]. rewrite <- Hl, <- lens_len, iost_end, initialised_ok. cbn [bind].
  eexists. split; [reflexivity|]. split; [apply stores_sel|]. split; [by apply typed_types|]. done.
Qed.
Lemma part_throw m cells ids : stores m cells -> buildPartOfMySelfKeepCoords m ids = Throw <-> exists v, v ∈ ids /\ ~ 0 <= v < zlen cells.
Proof.
  intros Hs. split.
  - intros E. destruct (decide (Forall (fun v => 0 <= v < zlen cells) ids)) as [Hf|Hf].
    + exfalso. destruct (picked_ex cells ids) as [sel Hsel]; [by apply Forall_forall|]. destruct (part_ok m cells ids sel Hs Hsel) as (m' & E' & _). congruence.
    + apply not_Forall_Exists, Exists_exists in Hf; [|apply _]. destruct Hf as (v & Hv & Hn). eauto.
  - intros Hb. apply first_bad in Hb as (pre & v & post & -> & Hv & Hpre). destruct (picked_ex cells pre Hpre) as [sel Hsel].
    destruct (stores_get m cells Hs) as (conn & connI & Ec & EI & Hsky & _). unfold buildPartOfMySelfKeepCoords, checkConnectivityFullyDefined. rewrite Ec, EI, (numCells_ok m cells Hs). cbn [bind].
    set (ids := pre ++ v :: post). pose proof (zlen_nonneg ids). pose proof (picked_len _ _ _ Hsel) as Hl. pose proof (zlen_nonneg post).
    assert (Hln : zlen ids = zlen pre + 1 + zlen post) by (unfold ids; rewrite zlen_app, zlen_cons; lia). rewrite iost_start by lia. cbn [bind].
    rewrite (forZ_stop _ (fun s : list cell => iost (zlen ids) (lens s)) (zlen ids) sel); [done|lia|..].
    + intros p c q E. rewrite E in Hsel. destruct (picked_at _ _ _ _ _ Hsel) as (w & Hw & Hc). apply zlook_Some_lt in Hw as ?. assert (ids @ zlen p = Some w) as Hw' by (unfold ids; rewrite zlook_app_l by lia; done). rewrite (rd_ok _ _ _ Hw'). cbn [bind]. apply zlook_Some_lt in Hc as ?.
      replace ((0 <=? w) && _) with true by lia. rewrite iost_rd'. cbn [bind]. destruct (cell_at cells conn connI w c Hsky Hc) as (a & E1 & E2 & _). rewrite (rd_ok _ _ _ E2). cbn [bind]. rewrite (rd_ok _ _ _ E1). cbn [bind].
      rewrite (iost_wr _ _ (1 + zlen c.2)) by (rewrite ?lens_len; lia). rewrite lens_snoc. done.
    + assert (ids @ zlen sel = Some v) as Hw'. { unfold ids. rewrite Hl, zlook_app_r by lia. rewrite Z.sub_diag. done. } rewrite (rd_ok _ _ _ Hw'). cbn [bind]. replace ((0 <=? v) && _) with false by lia. done.
Qed.

(** The same with a slice. *)
Lemma slice_ok m cells b e s ids sel : stores m cells -> is_Some (um_coords m) -> valid_range b e s -> is_range_list b e s ids -> picked cells ids sel ->
  exists m', buildPartOfMySelfKeepCoordsSlice m b e s = Ok m' /\ stores m' sel /\ typed m' sel /\ um_dim m' = um_dim m /\ um_coords m' = um_coords m.
Proof.
  intros Hs [d Hd] Hv Hr Hp. destruct (stores_get m cells Hs) as (conn & connI & Ec & EI & Hsky & _). unfold buildPartOfMySelfKeepCoordsSlice, checkFullyDefined. rewrite Ec, EI, Hd, (numCells_ok m cells Hs). cbn [bind].
  rewrite (count_is_len b e s ids Hv Hr). cbn [bind]. pose proof (zlen_nonneg ids). pose proof (picked_len _ _ _ Hp) as Hl. rewrite alloc1 by lia. cbn [bind]. rewrite iost_start by lia. cbn [bind].
  assert (Hid : forall k w, ids @ k = Some w -> w = b + k * s) by (intros k w Hk; apply Hr in Hk; tauto).
  set (st1 := fun pre : list cell => (iost (zlen ids) (lens pre), b + zlen pre * s)).
  replace (iost (zlen ids) [], b) with (st1 []) by (unfold st1; do 2 f_equal; change (zlen (@nil cell)) with 0; lia).
  rewrite (forZ_blocks _ st1 (zlen ids) sel Hl).
  2:{ intros pre c post E. unfold st1. rewrite E in Hp. destruct (picked_at _ _ _ _ _ Hp) as (w & Hw & Hc). rewrite <- (Hid _ _ Hw). apply zlook_Some_lt in Hc as ?. apply zlook_Some_lt in Hw as ?.
      replace ((0 <=? w) && _) with true by lia. rewrite iost_rd'. cbn [bind]. destruct (cell_at cells conn connI w c Hsky Hc) as (a & E1 & E2 & _). rewrite (rd_ok _ _ _ E2). cbn [bind]. rewrite (rd_ok _ _ _ E1). cbn [bind].
      rewrite (iost_wr _ _ (1 + zlen c.2)) by (rewrite ?lens_len; lia). cbn [bind]. rewrite lens_snoc, zlen_app. change (zlen [c]) with 1. do 2 f_equal. rewrite (Hid _ _ Hw). lia. }
  unfold st1. cbn [bind]. rewrite <- Hl, iost_rd'. cbn [bind]. pose proof (sum_nonneg sel). rewrite alloc1 by lia. cbn [bind]. rewrite Hl.
  set (M := zsum (lens sel)). set (st := fun pre : list cell => (typesOf pre, ost M (pk <$> pre), zsum (lens pre), b + zlen pre * s)).
  replace ([] : list Z, malloc Z M, 0, b) with (st []) by (unfold st; rewrite ost_start; do 2 f_equal; change (zlen (@nil cell)) with 0; lia). rewrite (forZ_blocks _ st (zlen ids) sel Hl).
  2:{ intros pre c post E. unfold st. rewrite E in Hp. destruct (picked_at _ _ _ _ _ Hp) as (w & Hw & Hc). rewrite <- (Hid _ _ Hw).
      destruct (fill_one cells conn connI Hsky M pre c w Hc) as (a & -> & -> & Et & Ecp). { unfold M. rewrite E. apply sel_bound. }
      cbn [bind]. rewrite Et. cbn [bind]. rewrite Ecp. cbn [bind]. rewrite typesOf_snoc, lens_snoc. rewrite zlen_app. change (zlen [c]) with 1. rewrite (Hid _ _ Hw). f_equal. f_equal; [|lia]. f_equal. unfold zsum. rewrite foldr_app. cbn [foldr]. clear. induction (lens pre); cbn [foldr]; lia. }
  unfold st. cbn [bind]. rewrite ost_end by (unfold M, lens; rewrite zsum_pre; done). rewrite initialised_ok. cbn [bind]. rewrite <- Hl, <- lens_len, iost_end, initialised_ok. cbn [bind].
  eexists. split; [reflexivity|]. split; [apply stores_sel|]. split; [by apply typed_types|]. done.
Qed.
Lemma slice_throw m cells b e s : stores m cells -> is_Some (um_coords m) -> (~ valid_range b e s \/ exists ids v, is_range_list b e s ids /\ v ∈ ids /\ ~ 0 <= v < zlen cells) -> buildPartOfMySelfKeepCoordsSlice m b e s = Throw.
Proof.
  intros Hs [d Hd] Hc. destruct (stores_get m cells Hs) as (conn & connI & Ec & EI & Hsky & _). unfold buildPartOfMySelfKeepCoordsSlice, checkFullyDefined. rewrite Ec, EI, Hd, (numCells_ok m cells Hs). cbn [bind].
  destruct (GetNumberOfItemGivenBESRelative b e s) as [n| | |] eqn:En; cbn [bind]; try done; [|by (unfold GetNumberOfItemGivenBESRelative, ifthrow in En; repeat case_match; done)..].
  assert (Hv : valid_range b e s). { destruct (decide (s <> 0 /\ (b < e -> 0 < s) /\ (e < b -> s < 0))) as [H|H]; [exact H|]. apply count_throw in H. congruence. }
  destruct Hc as [Hc|(ids & v & Hr & Hin & Hnv)]; [done|]. rewrite (count_is_len b e s ids Hv Hr) in En. injection En as <-.
  assert (Hid : forall k w, ids @ k = Some w -> w = b + k * s) by (intros k w Hk; apply Hr in Hk; tauto).
  destruct (first_bad ids (zlen cells)) as (pre & w & post & Eids & Hw & Hpre); [eauto|]. destruct (picked_ex cells pre Hpre) as [sel Hsel].
  pose proof (zlen_nonneg ids). pose proof (picked_len _ _ _ Hsel) as Hl. pose proof (zlen_nonneg post). assert (Hln : zlen ids = zlen pre + 1 + zlen post) by (rewrite Eids, zlen_app, zlen_cons; lia).
  rewrite alloc1 by lia. cbn [bind]. rewrite iost_start by lia. cbn [bind]. set (st1 := fun pre : list cell => (iost (zlen ids) (lens pre), b + zlen pre * s)).
  replace (iost (zlen ids) [], b) with (st1 []) by (unfold st1; do 2 f_equal; change (zlen (@nil cell)) with 0; lia).
  rewrite (forZ_stop _ st1 (zlen ids) sel); [done|lia|..].
  + intros p c q E. unfold st1. rewrite E in Hsel. destruct (picked_at _ _ _ _ _ Hsel) as (u & Hu & Hc). apply zlook_Some_lt in Hu as ?. assert (ids @ zlen p = Some u) as Hu' by (rewrite Eids; rewrite zlook_app_l by lia; done). rewrite <- (Hid _ _ Hu'). apply zlook_Some_lt in Hc as ?.
    replace ((0 <=? u) && _) with true by lia. rewrite iost_rd'. cbn [bind]. destruct (cell_at cells conn connI u c Hsky Hc) as (a & E1 & E2 & _). rewrite (rd_ok _ _ _ E2). cbn [bind]. rewrite (rd_ok _ _ _ E1). cbn [bind].
    rewrite (iost_wr _ _ (1 + zlen c.2)) by (rewrite ?lens_len; lia). cbn [bind]. rewrite lens_snoc, zlen_app. change (zlen [c]) with 1. do 2 f_equal. rewrite (Hid _ _ Hu'). lia.
  + unfold st1. assert (ids @ zlen sel = Some w) as Hw'. { rewrite Eids, Hl, zlook_app_r by lia. rewrite Z.sub_diag. done. } rewrite <- (Hid _ _ Hw'). replace ((0 <=? w) && _) with false by lia. done.
Qed.

(** * renumberCells *)
Lemma types_ok cells conn connI ty : skyline (pk <$> cells) conn connI -> ComputeAllTypesInternal ty (Some conn) (Some connI) = Ok (typesOf cells).
Proof.
  intros Hsky. unfold ComputeAllTypesInternal. destruct (stored_starts _ _ _ Hsky) as (_ & _ & Hl). apply (forZ_blocks _ typesOf _ cells); [lia|]. intros pre c post E.
  assert (Hc : cells @ zlen pre = Some c). { rewrite E, zlook_app_r by lia. rewrite Z.sub_diag. done. }
  destruct (cell_at cells conn connI _ c Hsky Hc) as (a & E1 & E2 & Ha & Hb & P & R & EP & HP). rewrite (rd_ok _ _ _ E1). cbn [bind]. assert (conn @ a = Some c.1) as Et. { rewrite EP, zlook_app_r by lia. rewrite HP, Z.sub_diag. done. }
  rewrite (rd_ok _ _ _ Et). cbn [bind]. rewrite typesOf_snoc. done.
Qed.
Lemma picked_look cells ids sel t i : picked cells ids sel -> ids @ t = Some i -> sel @ t = cells @ i.
Proof.
  intros H Ht. apply zlook_Some_lt in Ht as ?. rewrite zlook_to_nat in Ht by lia. destruct (Forall2_lookup_l _ _ _ _ _ H Ht) as (c & Hc & E). rewrite E. rewrite zlook_to_nat by lia. done.
Qed.
Lemma picked_perm (cells : list cell) ids sel : picked cells ids sel -> ids ≡ₚ seqZ 0 (zlen cells) -> sel ≡ₚ cells.
Proof.
  intros H Hp. set (f := fun i => default (0, []) (cells @ i)).
  assert (sel = f <$> ids) as ->. { clear Hp. induction H as [|i c ids sel Hc H IH]; [done|]. rewrite fmap_cons, IH. f_equal. unfold f. rewrite Hc. done. }
  assert (cells = f <$> seqZ 0 (zlen cells)) as E.
  { apply zlook_ext_lt; [rewrite zlen_fmap; unfold zlen; rewrite seqZ_length; lia|]. intros i Hi. rewrite zlook_fmap, zlook_seqZ by lia. rewrite Z.add_0_l. simpl. unfold f. destruct (zlook_lt cells i Hi) as [c ->]. done. }
  rewrite E at 1. rewrite Hp. done.
Qed.
Lemma zsum_Perm l l' : l ≡ₚ l' -> zsum l = zsum l'.
Proof. unfold zsum. induction 1; cbn [foldr]; lia. Qed.
Lemma renum_ok m cells l0 : stores m cells -> zlen cells <= zlen l0 -> NoDup (take (Z.to_nat (zlen cells)) l0) -> (forall v, v ∈ take (Z.to_nat (zlen cells)) l0 -> 0 <= v < zlen cells) ->
  exists m' sel, renumberCells m l0 false = Ok m' /\ stores m' sel /\ typed m' sel /\ um_dim m' = um_dim m /\ um_coords m' = um_coords m /\ sel ≡ₚ cells /\ forall i t, 0 <= i < zlen cells -> l0 @ i = Some t -> sel @ t = cells @ i.
Proof.
  intros Hs Hle Hnd Hv. destruct (stores_get m cells Hs) as (conn & connI & Ec & EI & Hsky & HlI). unfold renumberCells, checkConnectivityFullyDefined. rewrite Ec, EI, (numCells_ok m cells Hs). cbn [bind].
  replace (zlen l0 <? zlen cells) with false by lia. cbn [ubif bind]. set (n := zlen cells) in *. pose proof (zlen_nonneg cells). set (l := take (Z.to_nat n) l0) in *.
  assert (Hl : zlen l = n) by (unfold l; rewrite zlen_take; lia).
  assert (Hperm : l ≡ₚ seqZ 0 n).
  { apply submseteq_Permutation_length_le; [unfold zlen in Hl; rewrite seqZ_length; lia|]. apply NoDup_submseteq; [done|]. intros x Hx. apply elem_of_seqZ. apply Hv in Hx. lia. }
  destruct (invertO2N_ok l n ltac:(lia)) as (r & Er & Hrl & Hr & _). { intros v Hv'. right. by apply Hv. }
  change (DA true 1 l) with (vec l). rewrite Er. cbn [bind].
  assert (Hpos : forall t, 0 <= t < n -> exists i, last_pos l t i /\ r @ t = Some (Some i)).
  { intros t Ht. assert (t ∈ l) as Hin by (rewrite Hperm; apply elem_of_seqZ; lia). apply elem_of_zlook in Hin as [i Hi]. exists i. assert (last_pos l t i) as Hlp; [|split; [done|by apply Hr]].
    split; [done|]. intros k Hk Hkl. apply zlook_Some_lt in Hi as ?. apply zlook_Some_lt in Hkl as ?. rewrite zlook_to_nat in Hi, Hkl by lia. pose proof (NoDup_lookup _ _ _ _ Hnd Hi Hkl). lia. }
  destruct (all_some r) as [n2o ->]. { intros t Ht. apply zlook_Some_lt in Ht as ?. destruct (Hpos t ltac:(lia)) as (i & _ & E). congruence. }
  rewrite zlen_fmap in Hrl.
  assert (Hn2o : forall t i, n2o @ t = Some i -> l @ i = Some t). { intros t i Ht. apply zlook_Some_lt in Ht as ?. destruct (Hpos t ltac:(lia)) as (j & (Hj & _) & E). rewrite zlook_fmap, Ht in E. injection E as ->. done. }
  assert (Hperm2 : n2o ≡ₚ seqZ 0 n).
  { assert (seqZ 0 n ⊆+ n2o) as Hsub.
    - apply NoDup_submseteq; [apply NoDup_seqZ|]. intros i Hi. apply elem_of_seqZ in Hi. destruct (zlook_lt l i) as [t Ht]; [lia|]. pose proof (Hv t (zlook_elem _ _ _ Ht)) as Htn. destruct (zlook_lt n2o t) as [j Hj]; [lia|].
      pose proof (Hn2o _ _ Hj) as Hj'. apply zlook_Some_lt in Hj' as ?. assert (j = i) as ->; [|by eapply zlook_elem]. rewrite zlook_to_nat in Ht, Hj' by lia. pose proof (NoDup_lookup _ _ _ _ Hnd Ht Hj'). lia.
    - symmetry. apply submseteq_Permutation_length_le; [|done]. unfold zlen in Hrl. rewrite seqZ_length. lia. }
  destruct (picked_ex cells n2o) as [sel Hsel]. { intros v Hv'. rewrite Hperm2 in Hv'. apply elem_of_seqZ in Hv'. fold n. lia. }
  pose proof (picked_perm cells n2o sel Hsel Hperm2) as Hps. pose proof (picked_len _ _ _ Hsel) as Hsl.
  assert (HM : zlen conn = zsum (lens sel)). { destruct Hsky as [-> _]. rewrite zsum_pre. apply zsum_Perm. unfold lens. symmetry. by rewrite Hps. }
  rewrite alloc1 by apply zlen_nonneg. cbn [bind]. rewrite alloc1 by apply zlen_nonneg. cbn [bind]. replace (zlen connI) with (n + 1) by lia. rewrite iost_start by lia. cbn [bind].
  rewrite HM. set (M := zsum (lens sel)). set (st := fun pre : list cell => (ost M (pk <$> pre), iost n (lens pre), zsum (lens pre))).
  rewrite ost_start. change (ost M [], iost n [], 0) with (st []). assert (Hsn : zlen sel = n) by lia. rewrite (forZ_blocks _ st n sel Hsn).
  2:{ intros pre c post E. unfold st. rewrite E in Hsel. destruct (picked_at _ _ _ _ _ Hsel) as (w & Hw & Hc). assert ((Some <$> n2o) @ zlen pre = Some (Some w)) as Hw' by (rewrite zlook_fmap, Hw; done). rewrite (rdc_ok _ _ _ Hw'). cbn [bind].
      destruct (fill_one cells conn connI Hsky M pre c w Hc) as (a & E1 & E2 & Et & Ecp). { unfold M. rewrite E. apply sel_bound. }
      rewrite E2. cbn [bind]. rewrite E1. cbn [bind]. rewrite Ecp. cbn [bind]. apply zlook_Some_lt in Hw as ?. rewrite (iost_wr _ _ (1 + zlen c.2)) by (rewrite ?lens_len; lia). cbn [bind]. rewrite lens_snoc. do 2 f_equal. unfold zsum. rewrite foldr_app. cbn [foldr]. clear. induction (lens pre); cbn [foldr]; lia. }
  unfold st. cbn [bind]. rewrite ost_end by (unfold M, lens; rewrite zsum_pre; done). rewrite initialised_ok. cbn [bind]. assert (iost n (lens sel) = Some <$> psums (lens sel)) as -> by (rewrite <- Hsn, <- lens_len; apply iost_end). rewrite initialised_ok. cbn [bind].
  unfold setConnectivity. rewrite (types_ok sel) by apply (skyline_psums (pk <$> sel)). cbn [bind].
  eexists _, sel. split; [reflexivity|]. split; [apply stores_sel|]. split; [by apply typed_types|]. split; [done|]. split; [done|]. split; [done|]. intros i t Hi Hit.
  assert (l @ i = Some t) as Hlt by (unfold l; rewrite zlook_take by lia; done). pose proof (Hv t (zlook_elem _ _ _ Hlt)) as Htn. destruct (zlook_lt n2o t) as [j Hj]; [lia|]. rewrite (picked_look _ _ _ _ _ Hsel Hj). f_equal.
  pose proof (Hn2o _ _ Hj) as Hj'. apply zlook_Some_lt in Hj' as ?. rewrite zlook_to_nat in Hlt, Hj' by lia. pose proof (NoDup_lookup _ _ _ _ Hnd Hlt Hj'). lia.
Qed.
Lemma SSle_lookup (l : list Z) (i j : nat) a b : StronglySorted Z.le l -> l !! i = Some a -> l !! j = Some b -> (i < j)%nat -> a <= b.
Proof.
  intros H. revert i j. induction H as [|x l Hs IH Hf]; intros i j Hi Hj Hij; [done|]. destruct j as [|j]; [lia|]. cbn in Hj. destruct i as [|i]; cbn in Hi.
  - injection Hi as <-. apply elem_of_list_lookup_2 in Hj. by apply (proj1 (Forall_forall _ _) Hf).
  - apply (IH i j Hi Hj). lia.
Qed.
(** With check: the new order of the cells is the order of their values. *)
Lemma renum_check_ok m cells l0 : stores m cells -> zlen cells = zlen l0 -> NoDup l0 ->
  exists m' sel, renumberCells m l0 true = Ok m' /\ stores m' sel /\ typed m' sel /\ um_dim m' = um_dim m /\ um_coords m' = um_coords m /\ sel ≡ₚ cells /\
    forall i j a b p q, l0 @ i = Some a -> l0 @ j = Some b -> a < b -> cells @ i = Some p -> cells @ j = Some q -> exists s t, s < t /\ sel @ s = Some p /\ sel @ t = Some q.
Proof.
  intros Hs Hl Hnd. pose proof (prepare_wp l0) as H. destruct (CheckAndPreparePermutationRaw l0) as [r| | |] eqn:Ep; cbn in H; try done; try tauto. destruct H as (_ & k & -> & Hkl & Hk).
  assert (Hsort : forall i p, k @ i = Some p -> exists a, l0 @ i = Some a /\ StdModel.sort l0 @ p = Some a).
  { intros i p Hi. pose proof (Hk i p Hi) as E. apply zlook_Some_lt in Hi as ?. destruct (zlook_lt l0 i) as [a Ha]; [lia|]. exists a. split; [done|]. congruence. }
  assert (Hslen : zlen (StdModel.sort l0) = zlen l0) by (unfold zlen; rewrite sort_perm; done).
  assert (HS : forall p q a b, StdModel.sort l0 @ p = Some a -> StdModel.sort l0 @ q = Some b -> a < b -> p < q).
  { intros p q a b Hp Hq Hab. destruct (decide (p < q)); [done|]. exfalso. apply zlook_Some_lt in Hp as ?. apply zlook_Some_lt in Hq as ?. destruct (decide (p = q)) as [->|]; [assert (a = b) by congruence; lia|].
    rewrite zlook_to_nat in Hp, Hq by lia. pose proof (SSle_lookup _ _ _ _ _ (sort_sorted l0) Hq Hp ltac:(lia)). lia. }
  assert (Hkn : NoDup k).
  { apply NoDup_alt. intros i j p Hi Hj. rewrite <- zlook_nat in Hi, Hj. destruct (Hsort _ _ Hi) as (a & Ha & Ea). destruct (Hsort _ _ Hj) as (b & Hb & Eb). assert (a = b) as -> by congruence. rewrite zlook_nat in Ha, Hb. by eapply NoDup_lookup. }
  assert (Htk : take (Z.to_nat (zlen cells)) k = k) by (apply firstn_all2; unfold zlen in *; lia).
  destruct (renum_ok m cells k Hs ltac:(lia)) as (m' & sel & E & Hst & Hty & Hd & Hc & Hsl & Hsel); [by rewrite Htk|rewrite Htk; intros v Hv; apply elem_of_zlook in Hv as [i Hi]; destruct (Hsort _ _ Hi) as (a & _ & Ea); apply zlook_Some_lt in Ea; lia|].
  exists m', sel. split.
  { rewrite <- E. unfold renumberCells, checkConnectivityFullyDefined. destruct (um_connI m) as [connI|]; [|done]. destruct (um_conn m) as [conn|]; [|done]. rewrite (numCells_ok m cells Hs). cbn [bind]. rewrite Hkl, <- Hl, Htk. rewrite Z.ltb_irrefl. cbn [ubif].
    rewrite (firstn_all2 l0) by (unfold zlen in *; lia). rewrite Ep. cbn [bind]. rewrite initialised_ok. done. }
  split; [done|]. split; [done|]. split; [done|]. split; [done|].
  assert (Hon : forall i p, cells @ i = Some p -> exists t a, l0 @ i = Some a /\ StdModel.sort l0 @ t = Some a /\ sel @ t = Some p).
  { intros i p Hi. apply zlook_Some_lt in Hi as ?. destruct (zlook_lt k i) as [t Ht]; [lia|]. destruct (Hsort _ _ Ht) as (a & Ha & Ea). exists t, a. split; [done|]. split; [done|]. rewrite (Hsel i t) by (done || lia). done. }
  split.
  - done.
  - intros i j a b p q Hi Hj Hab Hp Hq. destruct (Hon i p Hp) as (s & a' & Ha' & Es & Hs'). destruct (Hon j q Hq) as (t & b' & Hb' & Et & Ht'). exists s, t. split; [|done]. eapply HS; [exact Es|exact Et|]. congruence.
Qed.
Lemma renum_check_throw m cells l0 : stores m cells -> zlen cells = zlen l0 -> ~ NoDup l0 -> renumberCells m l0 true = Throw.
Proof.
  intros Hs Hl Hnd. destruct (stores_get m cells Hs) as (conn & connI & Ec & EI & Hsky & HlI). unfold renumberCells, checkConnectivityFullyDefined. rewrite Ec, EI, (numCells_ok m cells Hs). cbn [bind].
  rewrite Hl. rewrite Z.ltb_irrefl. cbn [ubif]. rewrite firstn_all2 by (unfold zlen; lia). pose proof (prepare_wp l0) as H. destruct (CheckAndPreparePermutationRaw l0) as [r| | |]; cbn in H; try done. tauto.
Qed.
