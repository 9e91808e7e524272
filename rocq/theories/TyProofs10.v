(** Codes that are refused. *)
From Coq Require Import QArith ZifyBool ZifyNat.
From Verif Require Import Base DataArray ArrLib StdModel StdProofs FillLib RenumSpec RenumModel RenumProofs SearchSpec SearchModel SearchProofs SetsModel PermProofs SkyModel SkyProofs SkyProofs3 IndexSpec IndexProofs3 IndexProofs4 IndexProofs6 CellTable UmModel UmSpec UmProofs UmProofs2 UmProofs3 UmProofs8 UmProofs9 UmProofs10 UcModel UcProofs3 DsProofs4 DsProofs5 TyModel TySpec TyProofs TyProofs2 TyProofs3 TyProofs4 TyProofs5 TyProofs6 TyProofs7 TyProofs8.
Local Open Scope Z_scope.

Lemma shape_throw m code profs : zlen code = 0 \/ Z.rem (zlen code) 3 <> 0 -> checkTypeConsistencyAndContig m code profs = Throw.
Proof.
  intros H. unfold checkTypeConsistencyAndContig. destruct (Z.eqb_spec (zlen code) 0); [done|]. cbn [ifthrow]. destruct (Z.eqb_spec (Z.rem (zlen code) 3) 0) as [E|E]; [|done]. exfalso. tauto.
Qed.
Definition read_types (m : umesh) (code : list Z) (n : Z) : res (list Z * Z * bool) :=
  forZ 0 n (fun i '(types, nb, isNoPflUsed) =>
    let* t := rd code (3 * i) in
    if find_if (fun x => x =? t) types =? zlen types then
      let* c := rd code (3 * i + 1) in
      throw_if negb (smem t (um_types m)) >>>
      let* p := rd code (3 * i + 2) in
      Ok (types ++ [t], nb + c, isNoPflUsed && (p =? -1))
    else Ok (types, nb, isNoPflUsed)) ([], 0, true).
Section Code.
Variables (m : umesh) (cells : list cell) (code ts cs : list Z) (profs : list (option (list Z))).
Hypothesis Hs : stores m cells.
Hypothesis Ht : typed m cells.
Hypothesis Hcl : zlen code = 3 * zlen ts.
Hypothesis Hcs : zlen cs = zlen ts.
Hypothesis Hts : forall k, 0 <= k < zlen ts -> code @ (3 * k) = ts @ k /\ code @ (3 * k + 1) = cs @ k.
Let l := kinds cells.
Lemma code_types t : t ∈ um_types m <-> t ∈ l.
Proof using Ht. destruct Ht as [_ Hte]. rewrite Hte. unfold l, kinds. rewrite elem_of_list_fmap. split; intros (c & H1 & H2); exists c; done. Qed.
Lemma read_types_wp : wp (read_types m code (zlen ts))
  (fun '(types, nb, flag) => zlen types = zlen ts -> types = ts /\ NoDup ts /\ (forall t, t ∈ ts -> t ∈ l) /\ nb = zsum cs /\ (flag = true <-> forall k, 0 <= k < zlen ts -> code @ (3 * k + 2) = Some (-1)))
  (exists t, t ∈ ts /\ t ∉ l).
Proof using Ht Hcl Hcs Hts.
  pose proof (zlen_nonneg ts) as Hn. unfold read_types.
  apply (wp_forZ (fun i '(types, nb, flag) => zlen types <= i /\ (forall t, t ∈ types -> t ∈ l) /\ (zlen types = i -> types = take (Z.to_nat i) ts /\ NoDup types /\ nb = zsum (take (Z.to_nat i) cs) /\ (flag = true <-> forall k, 0 <= k < i -> code @ (3 * k + 2) = Some (-1))))); [lia| | |].
  - change (zlen (@nil Z)) with 0. split; [lia|]. split; [intros t H; apply elem_of_nil in H; done|]. intros _. split; [done|]. split; [constructor|]. split; [done|]. split; [intros _ k Hk; lia|done].
  - intros i [[types nb] flag] Hi (H1 & H2 & H3). destruct (Hts i Hi) as [C0 C1]. destruct (zlook_lt ts i) as [t Et]; [lia|]. destruct (zlook_lt cs i) as [c Ecs]; [lia|]. destruct (zlook_lt code (3 * i + 2)) as [p Ep]; [lia|]. unfold rd at 1. rewrite C0, Et. cbn [bind]. destruct (findpos types t) as (P1 & P2 & P3). destruct (Z.eqb_spec (find_if (fun x => x =? t) types) (zlen types)) as [Ef|Ef].
    + apply P1 in Ef. unfold rd at 1. rewrite C1, Ecs. cbn [bind]. destruct (smem t (um_types m)) eqn:Em; cbn [negb ifthrow].
      * apply smem_spec, code_types in Em. unfold rd. rewrite Ep. cbn [bind wp]. rewrite zlen_app. change (zlen [t]) with 1. split; [lia|]. split; [intros u Hu; apply elem_of_app in Hu as [Hu|Hu]; [auto|]; apply elem_of_list_singleton in Hu as ->; done|].
        intros E. destruct (H3 ltac:(lia)) as (-> & K1 & K2 & K3). rewrite (take_snoc_z _ _ _ Et), (zsum_take_succ _ _ _ Ecs). split; [done|]. split; [apply NoDup_app; split; [done|]; split; [|apply NoDup_singleton]; intros u Hu Hut; apply elem_of_list_singleton in Hut; congruence|]. split; [lia|].
        rewrite andb_true_iff, K3. split.
        -- intros [F1 F2] k Hk. destruct (decide (k = i)) as [->|]; [rewrite Ep; f_equal; lia|apply F1; lia].
        -- intros F. split; [intros k Hk; apply F; lia|]. specialize (F i ltac:(lia)). rewrite Ep in F. injection F as ->. done.
      * cbn [wp]. exists t. split; [eapply zlook_elem; exact Et|]. intros H. apply code_types, smem_spec in H. congruence.
    + cbn [wp]. split; [lia|]. split; [done|]. lia.
  - intros [[types nb] flag] (H1 & H2 & H3) E. destruct (H3 E) as (K0 & K1 & K2 & K3). rewrite take_ge in K0 by (unfold zlen; lia). rewrite take_ge in K2 by (unfold zlen in *; lia). subst types. done.
Qed.
Lemma types_throw : ts <> [] -> ~ (NoDup ts /\ forall t, t ∈ ts -> t ∈ l) -> checkTypeConsistencyAndContig m code profs = Throw.
Proof using Ht Hcl Hcs Hts.
  intros Hne Hbad. assert (zlen ts <> 0) by (intros H; apply SkyProofs3.zlen_0 in H; done). unfold checkTypeConsistencyAndContig. rewrite Hcl. destruct (Z.eqb_spec (3 * zlen ts) 0) as [|_]; [lia|]. cbn [ifthrow]. rewrite (Z.mul_comm 3), Z.quot_mul, Z.rem_mul by lia. cbn [Z.eqb negb ifthrow].
  pose proof read_types_wp as W. unfold read_types in W. match type of W with wp ?r _ _ => destruct r as [[[types nb] flag]| | |] end; cbn [wp] in W; try done. cbn [bind]. destruct (Z.eqb_spec (zlen types) (zlen ts)) as [E|E]; cbn [negb ifthrow]; [|done]. exfalso. destruct (W E) as (_ & K1 & K2 & _). tauto.
Qed.
Lemma order_throw : ts <> [] -> is_Some (um_coords m) -> (forall k, 0 <= k < zlen ts -> code @ (3 * k + 2) = Some (-1)) -> ~ (contiguous l /\ in_order ts l) -> checkTypeConsistencyAndContig m code profs = Throw.
Proof using Hs Ht Hcl Hcs Hts.
  intros Hne Hco Hno Hbad. assert (zlen ts <> 0) by (intros H; apply SkyProofs3.zlen_0 in H; done). unfold checkTypeConsistencyAndContig. rewrite Hcl. destruct (Z.eqb_spec (3 * zlen ts) 0) as [|_]; [lia|]. cbn [ifthrow]. rewrite (Z.mul_comm 3), Z.quot_mul, Z.rem_mul by lia. cbn [Z.eqb negb ifthrow].
  pose proof read_types_wp as W. unfold read_types in W. match type of W with wp ?r _ _ => destruct r as [[[types nb] flag]| | |] end; cbn [wp] in W; try done. cbn [bind]. destruct (Z.eqb_spec (zlen types) (zlen ts)) as [E|E]; cbn [negb ifthrow]; [|done]. destruct (W E) as (-> & K1 & K2 & _ & K3). rewrite (proj2 K3 Hno). destruct (order_ok m cells ts Hs Hco) as (b & -> & Hb). cbn [bind]. destruct b; [|done]. exfalso. apply Hbad, Hb. done.
Qed.
Lemma profile_throws k t id : ts @ k = Some t -> code @ (3 * k + 2) = Some id -> bad_profile l profs t id -> contiguous l -> ts `sublist_of` firsts l -> (forall n, n ∈ cs -> 0 <= n) ->
  (forall k t n id, ts @ k = Some t -> cs @ k = Some n -> code @ (3 * k + 2) = Some id -> (id = -1 -> n = number l t) /\ (forall ids, profs @ id = Some (Some ids) -> n = zlen ids)) -> checkTypeConsistencyAndContig m code profs = Throw.
Proof using Hs Ht Hcl Hcs Hts.
  intros Hk0 Hid0 Hbad Hc Hsub Hpos Hn. destruct (stores_get m cells Hs) as (conn & connI & Ec & EI & Hsky & _). pose proof (zlook_Some_lt _ _ _ Hk0) as Hk0'.
  assert (W0 : wp (checkTypeConsistencyAndContig m code profs) (fun _ => False) True); [|destruct (checkTypeConsistencyAndContig m code profs); cbn [wp] in W0; done].
  unfold checkTypeConsistencyAndContig. rewrite Hcl. destruct (Z.eqb_spec (3 * zlen ts) 0) as [|_]; [lia|]. cbn [ifthrow]. rewrite (Z.mul_comm 3), Z.quot_mul, Z.rem_mul by lia. cbn [Z.eqb negb ifthrow].
  pose proof read_types_wp as W. unfold read_types in W. match type of W with wp ?r _ _ => destruct r as [[[types nb] flag]| | |] end; cbn [wp] in W; try done. cbn [bind]. destruct (Z.eqb_spec (zlen types) (zlen ts)) as [E|E]; cbn [negb ifthrow]; [|done]. destruct (W E) as (-> & K1 & K2 & -> & K3).
  assert (flag = false) as ->. { destruct flag; [|done]. exfalso. pose proof (proj1 K3 eq_refl k Hk0') as H. rewrite Hid0 in H. injection H as ->. destruct Hbad as [H _]. done. } cbn [bind].
  assert (Hz : forall a b, cs = a ++ b -> 0 <= zsum b). { intros a b ->. assert (H : forall n, n ∈ b -> 0 <= n) by (intros n Hin; apply Hpos, elem_of_app; tauto). clear - H. induction b as [|x b IH]; [done|]. assert (0 <= x) by (apply H, elem_of_cons; tauto). assert (0 <= zsum b) by (apply IH; intros n Hin; apply H, elem_of_cons; tauto). change (zsum (x :: b)) with (x + zsum b). lia. }
  pose proof (Hz [] cs eq_refl) as Hz0. rewrite alloc_ok by lia. cbn [bind]. rewrite Z.mul_1_r. unfold unchecked. rewrite Ec, EI, (numCells_ok m cells Hs). cbn [bind]. assert (Hll : zlen l = zlen cells) by apply zlen_kinds.
  wstep. apply (wp_forZ (fun k '(ret, pos, i) => (exists out : list Z, ret = (Some <$> out) ++ malloc Z (zsum cs - zlen out) /\ zlen out = zsum (take (Z.to_nat k) cs) /\ pos = zlen out) /\ (forall k' t id, k' < k -> ts @ k' = Some t -> code @ (3 * k' + 2) = Some id -> ~ bad_profile l profs t id) /\ exists pre post, runs l = pre ++ post /\ i = size pre /\ drop (Z.to_nat k) ts `sublist_of` post.*1)); [lia| | |].
  - split; [exists []; split; [cbn; rewrite Z.sub_0_r; done|done]|]. split; [intros k' t' id' Hk' Hx; apply zlook_Some_lt in Hx; lia|]. exists [], (runs l). split; [done|]. split; [done|]. change (drop (Z.to_nat 0) ts) with ts. rewrite <- (firsts_contig l Hc). done.
  - intros kk [[ret pos] i] Hkk ((out & -> & Hout & ->) & Hgood & pre & post & Er & -> & Hrest). destruct (zlook_lt ts kk) as [u Eu]; [lia|]. destruct (zlook_lt cs kk) as [n' En']; [lia|]. destruct (zlook_lt code (3 * kk + 2)) as [p Ep]; [lia|]. destruct (Hn kk u n' p Eu En' Ep) as [N1 N2]. unfold rd at 1. rewrite Eu. cbn [bind].
    assert (Hdrop : drop (Z.to_nat kk) ts = u :: drop (Z.to_nat (kk + 1)) ts). { rewrite zlook_to_nat in Eu by lia. rewrite (drop_S _ _ _ Eu). f_equal. f_equal. lia. }
    rewrite Hdrop in Hrest. apply sublist_cons_l in Hrest as (k1 & k2 & Ek & Hrest). apply fmap_app_inv in Ek as (mid & rest & -> & Ek2 & ->). destruct rest as [|(t', n) rest]; [discriminate Ek2|]. rewrite fmap_cons in Ek2. cbn [fst] in Ek2. injection Ek2 as <- ->.
    assert (Er' : runs l = (pre ++ mid) ++ (u, n) :: rest) by (rewrite Er, <- app_assoc; done). pose proof (run_pos _ _ _ _ _ Er') as Hnp. pose proof (run_size _ _ _ _ _ Er') as Hsz. assert (Hsp0 : 0 <= size pre <= size (pre ++ mid)) by (rewrite size_app; unfold size; pose proof (zlen_nonneg (expand pre)); pose proof (zlen_nonneg (expand mid)); lia).
    assert (findSame conn connI (size pre) (zlen cells) u = Ok (size (pre ++ mid))) as ->.
    { unfold findSame. destruct (findType_ok cells conn connI Hsky (fun x => x =? u) (size pre) (zlen cells) ltac:(lia) eq_refl) as (j & -> & Hj & F1 & F2). f_equal. assert (Hat : l @ (size (pre ++ mid)) = Some u) by (apply (run_in _ _ _ _ _ Er'); lia). assert (Hjle : j <= size (pre ++ mid)). { destruct (decide (j <= size (pre ++ mid))) as [|Hgt]; [done|]. specialize (F1 (size (pre ++ mid)) u ltac:(lia) Hat). cbv beta in F1. lia. }
      destruct (F2 ltac:(lia)) as (t' & Ht' & Heq). cbv beta in Heq. assert (t' = u) as -> by lia. pose proof (run_only _ _ _ _ _ _ Hc Er' Ht'). lia. }
    cbn [bind]. rewrite (findOther_ok _ _ _ Hsky _ _ _ _ Er'). cbn [bind]. replace (size (pre ++ mid) + n - size (pre ++ mid)) with n by lia. pose proof (number_run _ _ _ _ _ Hc Er') as Hnum.
    assert (Hend : exists pre' post', runs l = pre' ++ post' /\ size (pre ++ mid) + n = size pre' /\ drop (Z.to_nat (kk + 1)) ts `sublist_of` post'.*1) by (exists ((pre ++ mid) ++ [(u, n)]), rest; split; [rewrite Er', <- (app_assoc (pre ++ mid) [(u, n)] rest); done|]; split; [rewrite (size_app (pre ++ mid)), size_one by lia; done|done]).
    pose proof (zsum_take_succ _ _ _ En') as Hsum. assert (Hroom : zsum (take (Z.to_nat (kk + 1)) cs) <= zsum cs). { rewrite <- (take_drop (Z.to_nat (kk + 1)) cs) at 2. rewrite zsum_app. pose proof (Hz (take (Z.to_nat (kk + 1)) cs) (drop (Z.to_nat (kk + 1)) cs) ltac:(symmetry; apply take_drop)). lia. }
    assert (Hgood' : ~ bad_profile l profs u p -> forall k' t id, k' < kk + 1 -> ts @ k' = Some t -> code @ (3 * k' + 2) = Some id -> ~ bad_profile l profs t id). { intros Hb k' t' id' Hk' H1 H2. destruct (decide (k' = kk)) as [->|]; [assert (t' = u) as -> by congruence; assert (id' = p) as -> by congruence; done|]. apply (Hgood k'); [lia|done|done]. }
    unfold rd at 1. rewrite Ep. cbn [bind]. destruct (Z.eqb_spec p (-1)) as [->|Hp].
    + specialize (N1 eq_refl). pose proof (fill_more out ((fun v => v + size (pre ++ mid)) <$> seqZ 0 n) (zsum cs - zlen out)) as F. rewrite zlen_fmap, zlen_seqZ, Z.max_r in F by lia. rewrite F; [|lia|].
      2:{ intros j v st Hj. rewrite zlook_fmap, zseq in Hj. destruct ((0 <=? j) && (j <? n)); [|done]. injection Hj as <-. done. }
      cbn [bind wp]. split; [exists (out ++ ((fun v => v + size (pre ++ mid)) <$> seqZ 0 n)); rewrite zlen_app, zlen_fmap, zlen_seqZ, Z.max_r by lia; split; [f_equal; f_equal; lia|lia]|]. split; [|done]. apply Hgood'. intros [H _]. done.
    + destruct ((p <? 0) || (zlen profs <=? p)) eqn:Eid; cbn [ifthrow]; [done|]. destruct (zlook_lt profs p) as [op Epf]; [lia|]. unfold rd at 1. rewrite Epf. cbn [bind]. destruct op as [ids|]; [|done]. specialize (N2 ids Epf).
      wstep. apply (wp_foldM _ (fun pr '(ret, pos) => (forall v, v ∈ pr -> 0 <= v < n) /\ exists out' : list Z, ret = (Some <$> out') ++ malloc Z (zsum cs - zlen out') /\ zlen out' = zlen out + zlen pr /\ pos = zlen out')).
      * split; [intros v H; apply elem_of_nil in H; done|]. exists out. change (zlen (@nil Z)) with 0. split; [done|]. lia.
      * intros pr v po [ret pos] Epr (Hpr & out' & -> & Ho & ->). destruct ((v <? 0) || (n <=? v)) eqn:Ev; cbn [ifthrow]; [done|]. assert (Hl3 : zlen ids = zlen pr + 1 + zlen po) by (rewrite Epr, zlen_app, zlen_cons; lia). pose proof (zlen_nonneg po). rewrite wrc_fill; [|lia|lia]. cbn [bind wp]. split; [intros w Hw; apply elem_of_app in Hw as [Hw|Hw]; [auto|]; apply elem_of_list_singleton in Hw as ->; lia|]. exists (out' ++ [v + size (pre ++ mid)]). rewrite !zlen_app. change (zlen [v]) with 1. change (zlen [v + size (pre ++ mid)]) with 1. split; [f_equal; f_equal; lia|lia].
      * intros [ret pos] (Hpr & out' & -> & Ho & ->). cbn [wp]. split; [exists out'; split; [done|]; lia|]. split; [|done]. apply Hgood'. intros (_ & [H|[H|[H|(ids' & v & H1 & H2 & H3)]]]); [lia|lia|congruence|]. assert (ids' = ids) as -> by congruence. rewrite Hnum in H3. auto.
  - intros [[ret pos] i] (_ & Hgood & _). exact (Hgood k t id ltac:(lia) Hk0 Hid0 Hbad).
Qed.
End Code.
