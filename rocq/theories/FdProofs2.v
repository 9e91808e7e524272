(** Consistency of a field, offsets, access to a value, expected number of tuples. *)
From Coq Require Import QArith Qabs ZifyBool ZifyNat.
From Verif Require Import Base DataArray ArrLib IndexSpec IndexModel IndexProofs2 FillLib RenumSpec CellTable SkyModel SkyProofs UmModel UmSpec UmProofs UmProofs2 UcModel GlModel GlSpec GlProofs FdModel FdSpec FdProofs.
Local Open Scope Z_scope.

(** * Consistency *)
Lemma loc_case l : checkLoc l = Ok tt /\ fits (gl_type l) (gl_ref l) (gl_gauss l) (gl_w l) \/ checkLoc l = Throw /\ ~ fits (gl_type l) (gl_ref l) (gl_gauss l) (gl_w l).
Proof.
  destruct l as [t r gs w]. cbn [gl_type gl_ref gl_gauss gl_w]. destruct (newLoc_case t r gs w) as [[E H]|[E H]]; [left|right]; (split; [|done]); unfold newLoc in E; destruct (checkLoc (GL t r gs w)) as [[]| | |]; done.
Qed.
Lemma locs_ok (ls : list gloc) : wp (foldM (fun _ l => checkLoc l) ls tt) (fun _ => forall l, l ∈ ls -> fits (gl_type l) (gl_ref l) (gl_gauss l) (gl_w l)) (exists l, l ∈ ls /\ ~ fits (gl_type l) (gl_ref l) (gl_gauss l) (gl_w l)).
Proof.
  apply (wp_foldM _ (fun pre _ => forall l, l ∈ pre -> fits (gl_type l) (gl_ref l) (gl_gauss l) (gl_w l))); [intros l Hl; by apply elem_of_nil in Hl| |done].
  intros pre l post s El Hp. destruct (loc_case l) as [[-> H]|[-> H]]; cbn [wp].
  - intros x Hx. apply elem_of_app in Hx as [Hx|Hx]; [by apply Hp|]. apply elem_of_list_singleton in Hx as ->. done.
  - exists l. split; [|done]. rewrite El. apply elem_of_app. right. left.
Qed.
Definition type_ok (g : gauss) (cells : list cell) (i : Z) : Prop := exists (c : cell) l, cells @ i = Some c /\ loc_of g i = Some l /\ gl_type l = c.1.
Lemma check_ok {A} d m cells co (a : da A) : stores m cells -> um_coords m = Some co ->
  checkCoherencyBetween d m a = Ok tt /\ suits d cells (da_nt co) (da_nt a) \/ checkCoherencyBetween d m a = Throw /\ ~ suits d cells (da_nt co) (da_nt a).
Proof.
  intros Hs Ec. destruct d as [| |g|].
  - pose proof (tuples_ok P0 m cells _ Hs eq_refl) as E. cbn [getNumberOfTuples] in E. cbn [checkCoherencyBetween suits]. rewrite E. cbn [bind]. destruct (zsum ((fun _ => 1) <$> cells) =? da_nt a) eqn:Eb; cbn [negb ifthrow]; [left|right]; (split; [done|]).
    + eexists. split; [reflexivity|lia].
    + intros (ns & -> & ?). lia.
  - cbn [checkCoherencyBetween suits]. unfold getNumberOfNodes. rewrite Ec. cbn [bind]. destruct (Z.eqb_spec (da_nt co) (da_nt a)); cbn [negb ifthrow]; [left|right]; (split; [done|lia]).
  - cbn [checkCoherencyBetween suits]. destruct (gd_dpc g) as [dpc|] eqn:E; [|right; split; [done|]; intros (ns & (x & Hx & _) & _); congruence].
    rewrite (numCells_ok m cells Hs). cbn [bind]. destruct (Z.eqb_spec (zlen cells) (zlen dpc)) as [Hl|Hl]; cbn [negb ifthrow]; [|right; split; [done|]; intros (ns & (x & Hx & Hx' & _) & _); congruence].
    pose proof (locs_ok (gd_loc g)) as HL. destruct (foldM (fun _ l => checkLoc l) (gd_loc g) tt) as [[]| | |]; cbn [wp] in HL; try done; cbn [bind].
    2:{ right. split; [done|]. destruct HL as (l & Hl' & Hn). intros (ns & _ & _ & H & _). by apply Hn, H. }
    match goal with |- context [forZ ?a ?b ?f ?s0] => assert (W : wp (forZ a b f s0) (fun _ => forall i, 0 <= i < zlen dpc -> type_ok g cells i) (exists i, 0 <= i < zlen dpc /\ ~ type_ok g cells i)) end.
    { apply (wp_forZ (fun n _ => forall i, 0 <= i < n -> type_ok g cells i)); [apply zlen_nonneg|intros; lia| |done]. intros i s Hi IH. destruct (zlook_lt dpc i Hi) as [w Hw]. rewrite (rd_ok _ _ _ Hw). cbn [bind].
      destruct (zlook_lt cells i ltac:(lia)) as [c Hc]. assert (Elo : loc_of g i = gd_loc g @ w) by (unfold loc_of; by rewrite E, Hw).
      assert (Bad : gd_loc g @ w = None -> exists i, 0 <= i < zlen dpc /\ ~ type_ok g cells i) by (intros En; exists i; split; [done|]; intros (c' & l & _ & Hl' & _); congruence).
      destruct (Z.leb_spec (zlen (gd_loc g)) w); cbn [ifthrow wp]; [apply Bad, zlook_None; lia|]. destruct (Z.ltb_spec w 0); cbn [ifthrow wp]; [apply Bad, zlook_None; lia|].
      rewrite (typeOf_ok m cells i Hs), Hc by lia. cbn [bind]. destruct (zlook_lt (gd_loc g) w ltac:(lia)) as [l Hl']. rewrite (rd_ok _ _ _ Hl'). cbn [bind]. destruct (Z.eqb_spec c.1 (gl_type l)) as [Et|Et]; cbn [negb ifthrow wp].
      - intros k Hk. destruct (decide (k = i)) as [->|]; [|apply IH; lia]. exists c, l. split; [done|]. split; [congruence|done].
      - exists i. split; [done|]. intros (c' & l' & Hc' & Hl2 & Ht). rewrite Hc in Hc'. injection Hc' as <-. rewrite Elo, Hl' in Hl2. injection Hl2 as <-. congruence. }
    destruct (forZ _ _ _ _) as [[]| | |] in W |- *; cbn [wp] in W; try done; cbn [bind].
    2:{ right. split; [done|]. destruct W as (i & Hi & Hn). intros (ns & Hns & _ & _ & H). apply Hn. destruct (proj2 (sizes_gauss g cells dpc ns E ltac:(lia)) Hns) as [Hn' Hns']. destruct (zlook_lt ns i ltac:(lia)) as [v Hv].
        destruct (gtest _ _ _ _ (Hns' i v Hv)) as (w & l & Hw & Hl' & _). destruct (zlook_lt cells i ltac:(lia)) as [c Hc]. assert (Elo : loc_of g i = Some l) by (unfold loc_of; by rewrite E, Hw). exists c, l. split; [done|]. split; [done|]. by eapply H. }
    destruct (sizes_or (GaussPt g) m cells Hs) as [(ns & Hns)|[[Et Hno]|(g' & dpc' & [= <-] & Ed & Hl')]]; [done| | |rewrite E in Ed; injection Ed as <-; congruence].
    + pose proof (tuples_ok _ m cells ns Hs Hns) as Et. cbn [getNumberOfTuples] in Et. rewrite Et. cbn [bind]. destruct (Z.eqb_spec (zsum ns) (da_nt a)) as [Ea|Ea]; cbn [negb ifthrow]; [left|right]; (split; [done|]).
      * exists ns. split; [done|]. split; [done|]. split; [done|]. intros i c l Hc Hlo. apply zlook_Some_lt in Hc as ?. destruct (W i ltac:(lia)) as (c' & l' & Hc' & Hl' & Ht). congruence.
      * intros (ns' & Hns' & E' & _). rewrite (sizes_fun _ m cells ns ns' Hs Hns Hns') in Ea. congruence.
    + cbn [getNumberOfTuples] in Et. rewrite Et. right. split; [done|]. intros (ns & Hns & _). by apply (Hno ns).
  - cbn [checkCoherencyBetween suits]. destruct (sizes_or GaussNE m cells Hs) as [(ns & Hns)|[[Et Hno]|(g' & dpc' & [=] & _)]]; [done| |].
    + pose proof (tuples_ok _ m cells ns Hs Hns) as Et. cbn [getNumberOfTuples] in Et. rewrite Et. cbn [bind]. destruct (Z.eqb_spec (da_nt a) (zsum ns)) as [Ea|Ea]; cbn [negb ifthrow]; [left|right]; (split; [done|]).
      * by exists ns.
      * intros (ns' & Hns' & E'). rewrite (sizes_fun _ m cells ns ns' Hs Hns Hns') in Ea. congruence.
    + cbn [getNumberOfTuples] in Et. rewrite Et. right. split; [done|]. intros (ns & Hns & _). by apply (Hno ns).
Qed.

(** * Offsets *)
Lemma iota_ok n : 0 <= n -> iotaArr n = Ok (Some <$> seqZ 0 n).
Proof.
  intros Hn. unfold iotaArr. rewrite alloc1 by lia. cbn [bind].
  assert (W : wp (forZ 0 n (fun i a => wrc a i i) (malloc Z n)) (fun r => r = Some <$> seqZ 0 n) False).
  { apply (wp_forZ (fun i r => r = (Some <$> seqZ 0 i) ++ malloc Z (n - i))); [lia| | |].
    - rewrite Z.sub_0_r. done.
    - intros i r Hi ->. rewrite wrc_fill by (rewrite ?zlen_seqZ; lia). cbn [wp]. rewrite seqZ_app_r by lia. rewrite Z.add_0_l. f_equal. f_equal. lia.
    - intros r ->. rewrite Z.sub_diag. change (malloc Z 0) with (@nil (option Z)). by rewrite app_nil_r. }
  apply wp_ok in W as (r & -> & ->). done.
Qed.
Lemma psums_ones {X} (l : list X) : psums ((fun _ => 1) <$> l) = seqZ 0 (zlen l + 1).
Proof.
  pose proof (zlen_nonneg l). symmetry. apply prefix_sums_eq. split; [rewrite zlen_seqZ, zlen_fmap; lia|]. intros i Hi. rewrite zlen_fmap in Hi. rewrite zlook_seqZ by lia. f_equal. rewrite <- fmap_take.
  assert (E : forall k : list X, zsum ((fun _ => 1) <$> k) = zlen k). { intros k. induction k as [|x k IH]; [done|]. rewrite fmap_cons. change (zsum (1 :: ((fun _ => 1) <$> k))) with (1 + zsum ((fun _ => 1) <$> k)). rewrite IH, zlen_cons. lia. }
  rewrite E, zlen_take. lia.
Qed.
Lemma offsets_loop (body : Z -> list (option Z) -> res (list (option Z))) ns :
  (forall i v ret, ns @ i = Some v -> body i ret = let* p := rdc ret i in wrc ret (i + 1) (p + v)) ->
  (let* ret := wrc (malloc Z (zlen ns + 1)) 0 0 in forZ 0 (zlen ns) body ret) = Ok (Some <$> psums ns).
Proof.
  intros H. pose proof (zlen_nonneg ns). rewrite (fill_start (A := Z) (zlen ns + 1)), wrc_fill by (lia || done). cbn [bind].
  assert (W : wp (forZ 0 (zlen ns) body ((Some <$> [] ++ [0]) ++ malloc Z (zlen ns + 1 - 1))) (fun r => r = Some <$> psums ns) False).
  { apply (wp_forZ (fun i r => r = (Some <$> psums (take (Z.to_nat i) ns)) ++ malloc Z (zlen ns - i))); [lia| | |].
    - f_equal. f_equal. lia.
    - intros i r Hi ->. destruct (zlook_lt ns i Hi) as [v Hv]. rewrite (H i v _ Hv). assert (Hl : zlen (take (Z.to_nat i) ns) = i) by (rewrite zlen_take; lia).
      rewrite (rdc_fill _ _ i (zsum (take (Z.to_nat i) ns))) by (pose proof (psums_end (take (Z.to_nat i) ns)) as Hp; rewrite Hl in Hp; exact Hp). cbn [bind]. rewrite wrc_fill by (rewrite ?psums_len; lia). cbn [wp]. f_equal; [|f_equal; lia]. f_equal.
      rewrite <- psums_snoc_eq. f_equal. rewrite zlook_to_nat in Hv by lia. replace (Z.to_nat (i + 1)) with (S (Z.to_nat i)) by lia. symmetry. by apply take_S_r.
    - intros r ->. rewrite Z.sub_diag, app_nil_r, firstn_all2; [done|unfold zlen; lia]. }
  apply wp_ok in W as (r & -> & ->). done.
Qed.
Lemma offsets_ok d m cells ns : stores m cells -> sizes d cells ns -> getOffsetArr d m = Ok (Some <$> psums ns).
Proof.
  intros Hs H. pose proof (zlen_nonneg cells). destruct d as [| |g|]; cbn [getOffsetArr].
  - cbn [sizes] in H. rewrite H, (numCells_ok m cells Hs). cbn [bind]. rewrite iota_ok by lia. by rewrite psums_ones.
  - done.
  - pose proof H as (dpc & E & Hl & _). destruct (proj2 (sizes_gauss g cells dpc ns E Hl) H) as [H1 H2]. rewrite (numCells_ok m cells Hs). cbn [bind]. rewrite alloc1 by lia. cbn [bind]. rewrite E, Hl, Z.eqb_refl. cbn [negb ifthrow]. rewrite <- Hl, <- H1.
    apply offsets_loop. intros i v ret Hv. destruct (gtest _ _ _ _ (H2 i v Hv)) as (w & l & Hw & Hl' & Hb & ->). rewrite (rd_ok _ _ _ Hw). cbn [bind]. replace ((0 <=? w) && (w <? zlen (gd_loc g))) with true by lia. by rewrite (rd_ok _ _ _ Hl').
  - destruct (proj2 (sizes_ne m cells ns Hs) H) as [H1 H2]. rewrite (numCells_ok m cells Hs). cbn [bind]. rewrite alloc1 by lia. cbn [bind]. rewrite <- H1. apply offsets_loop. intros i v ret Hv. by rewrite (H2 i v Hv).
Qed.

(** * Access to a value *)
Lemma model_nbpts t k : GetCellModel t = Ok k -> 0 <= cm_nbpts k.
Proof.
  unfold GetCellModel. destruct (List.find _ models) as [c|] eqn:E; [|done]. intros [= <-]. apply find_some in E as [E _]. revert E. assert (H : forallb (fun c => 0 <=? cm_nbpts c) models = true) by (vm_compute; done).
  intros E. rewrite forallb_forall in H. specialize (H c E). lia.
Qed.
Lemma sum_take ns c : 0 <= c <= zlen ns -> forall body : Z -> Z -> res Z, (forall i v s, ns @ i = Some v -> body i s = Ok (s + v)) -> forZ 0 c body 0 = Ok (zsum (take (Z.to_nat c) ns)).
Proof.
  intros Hc body H. replace c with (zlen (take (Z.to_nat c) ns)) at 1 by (rewrite zlen_take; lia). rewrite (forZ_sum _ (take (Z.to_nat c) ns) 0); [done|]. intros i v s Hv. apply H. apply zlook_Some_lt in Hv as Hb. rewrite zlen_take in Hb. rewrite zlook_take in Hv by lia. done.
Qed.
Lemma getIJK_ok {A} d m cells ns (a : da A) c n k j : stores m cells -> sizes d cells ns -> d <> P0 -> sized a (zsum ns) -> ns @ c = Some n -> 0 <= k < n -> 0 <= j < da_nc a ->
  exists v, getIJK d m a c k j = Ok v /\ value a ns c k j = Some v.
Proof.
  intros Hs H Hd (Hal & Hwf & Hnc & Hnt) Hn Hk Hj. apply zlook_Some_lt in Hn as Hc.
  assert (Hoff : offsetOf d m c = Ok (zsum (take (Z.to_nat c) ns))).
  { destruct d as [| |g|]; cbn [offsetOf]; try done.
    - pose proof H as (dpc & E & Hl & _). destruct (proj2 (sizes_gauss g cells dpc ns E Hl) H) as [H1 H2]. rewrite E. replace (c <? 0) with false by lia. cbn [ubif]. apply sum_take; [lia|]. intros i v s Hv. destruct (gtest _ _ _ _ (H2 i v Hv)) as (w & l & Hw & Hl' & Hb & ->).
      rewrite (rd_ok _ _ _ Hw). cbn [bind]. by rewrite (rd_ok _ _ _ Hl').
    - pose proof (proj1 (F2_pair _ _ _) H) as [H1 H2]. apply sum_take; [lia|]. intros i v s Hv. apply zlook_Some_lt in Hv as ?. destruct (zlook_lt cells i ltac:(lia)) as [x Hx]. destruct (H2 i x v Hx Hv) as (q & Eq & _ & ->). rewrite (typeOf_ok m cells i Hs), Hx by lia. cbn [bind]. by rewrite Eq. }
  assert (Hpos : forall i v, ns @ i = Some v -> 0 <= v).
  { intros i v Hv. destruct d as [| |g|]; try done.
    - pose proof H as (dpc & E & Hl & _). destruct (proj2 (sizes_gauss g cells dpc ns E Hl) H) as [H1 H2]. destruct (gtest _ _ _ _ (H2 i v Hv)) as (w & l & Hw & Hl' & Hb & ->). apply zlen_nonneg.
    - pose proof (proj1 (F2_pair _ _ _) H) as [H1 H2]. apply zlook_Some_lt in Hv as ?. destruct (zlook_lt cells i ltac:(lia)) as [x Hx]. destruct (H2 i x v Hx Hv) as (q & Eq & _ & ->). apply (model_nbpts _ _ Eq). }
  unfold getIJK, value, ij. rewrite Hoff. cbn [bind]. set (o := zsum (take (Z.to_nat c) ns)).
  assert (Ho : 0 <= o). { unfold o. apply zsum_nonneg. intros v Hv. apply elem_of_take in Hv as (i & Hv & _). rewrite <- zlook_nat in Hv. by eapply Hpos. }
  assert (Ho2 : o + n <= zsum ns).
  { unfold o. rewrite <- (zsum_take_succ ns c n Hn). rewrite <- (take_drop (Z.to_nat (c + 1)) ns) at 2. rewrite zsum_app. assert (0 <= zsum (drop (Z.to_nat (c + 1)) ns)); [|lia]. apply zsum_nonneg. intros v Hv. apply elem_of_list_lookup in Hv as [i Hv]. rewrite lookup_drop, <- zlook_nat in Hv. by eapply Hpos. }
  replace ((0 <=? o + k) && (0 <=? j) && (j <? da_nc a)) with true by lia.
  destruct (zlook_lt (da_vals a) ((o + k) * da_nc a + j)) as [v Hv].
  { assert (El : zlen (da_vals a) = da_nt a * da_nc a) by (by apply da_wf_len). rewrite El, Hnt. nia. }
  exists v. split; [by apply rd_ok|done].
Qed.

(** * Expected number of tuples *)
Lemma code_len trs : zlen (code_of trs) = 3 * zlen trs.
Proof. induction trs as [|[[t n] p] l IH]; [done|]. change (code_of ((t, n, p) :: l)) with ([t; n; p] ++ code_of l). rewrite zlen_app, IH. change (zlen [t; n; p]) with 3. rewrite zlen_cons. lia. Qed.
Lemma code_at trs i t n p : trs @ i = Some (t, n, p) -> code_of trs @ (3 * i) = Some t /\ code_of trs @ (3 * i + 1) = Some n /\ code_of trs @ (3 * i + 2) = Some p.
Proof.
  revert i. induction trs as [|[[t' n'] p'] l IH]; intros i H; [by rewrite zlook_nil in H|]. apply zlook_Some_lt in H as Hb. change (code_of ((t', n', p') :: l)) with ([t'; n'; p'] ++ code_of l). rewrite zlook_cons in H. destruct (Z.eqb_spec i 0) as [E0|E0]; [subst i|].
  - injection H as -> -> ->. done.
  - destruct (IH (i - 1) H) as (H1 & H2 & H3). assert (E3 : zlen [t'; n'; p'] = 3) by done. assert (1 <= i) by lia. assert (B : 3 <= 3 * i) by lia. rewrite (zlook_app_r _ _ (3 * i)) by (rewrite E3; exact B). rewrite (zlook_app_r _ _ (3 * i + 1)) by (rewrite E3; lia). rewrite (zlook_app_r _ _ (3 * i + 2)) by (rewrite E3; lia). rewrite E3.
    replace (3 * i - 3) with (3 * (i - 1)) by lia. replace (3 * i + 1 - 3) with (3 * (i - 1) + 1) by lia. replace (3 * i + 2 - 3) with (3 * (i - 1) + 2) by lia. done.
Qed.
Definition stepv (per : Z -> res Z) (pfls : list (option (da Z))) (tr : Z * Z * Z) : res Z :=
  let '(t, nb, pos) := tr in
  let* n := per t in
  throw_if nb <? 0 >>>
  let* _ := if negb (pos =? -1) then
       throw_if (pos <? 0) || (zlen pfls <=? pos) >>>
       let* ids := rd pfls pos in
       match ids with
       | None => Throw
       | Some ids =>
         throw_if negb (da_alloc ids) >>> throw_if negb (da_nc ids =? 1) >>> throw_if negb (da_nt ids =? nb) >>>
         throw_if (zlen (da_vals ids) =? 0) || existsb (fun v => v <? 0) (da_vals ids) >>> Ok tt
       end
     else Ok tt in
  Ok (nb * n).
Lemma nt1 (d : da Z) : da_nc d = 1 -> da_nt d = zlen (da_vals d).
Proof. intros E. unfold da_nt. rewrite E. cbn. apply Z.quot_1_r. Qed.
Lemma stepv_case per pfls tr : (forall t, (exists v, per t = Ok v) \/ per t = Throw) ->
  (exists k, stepv per pfls tr = Ok (tr.1.2 * k) /\ good_triple pfls tr /\ per tr.1.1 = Ok k) \/ (stepv per pfls tr = Throw /\ ~ (good_triple pfls tr /\ exists k, per tr.1.1 = Ok k)).
Proof.
  intros Hper. destruct tr as [[t nb] pos]. cbn [fst snd]. unfold stepv, good_triple. destruct (Hper t) as [[k Ek]|Ek]; rewrite Ek; cbn [bind]; [|right; split; [done|]; intros (_ & k & ?); congruence].
  destruct (Z.ltb_spec nb 0); cbn [ifthrow]; [right; split; [done|lia]|]. destruct (Z.eqb_spec pos (-1)) as [->|Hp]; cbn [negb bind]; [left; exists k; split; [done|]; split; [split; [done|by left]|done]|].
  destruct ((pos <? 0) || (zlen pfls <=? pos)) eqn:Eb; cbn [ifthrow bind].
  { right. split; [done|]. intros ((_ & [?|(ids & Hi & _)]) & _); [done|]. apply zlook_Some_lt in Hi. lia. }
  destruct (zlook_lt pfls pos ltac:(lia)) as [o Ho]. rewrite (rd_ok _ _ _ Ho). cbn [bind]. destruct o as [ids|]; cbn [bind]; [|right; split; [done|]; intros ((_ & [?|(ids & Hi & _)]) & _); congruence].
  assert (No2 : ~ profile ids nb -> ~ ((0 <= nb /\ (pos = -1 \/ exists ids, pfls @ pos = Some (Some ids) /\ profile ids nb)) /\ exists k0 : Z, Ok k = Ok k0)).
  { intros Hn ((_ & [?|(ids' & Hi & Hp')]) & _); [done|]. rewrite Ho in Hi. injection Hi as <-. done. }
  destruct (da_alloc ids) eqn:Ea; cbn [negb ifthrow bind]; [|right; split; [done|apply No2; intros (? & _); congruence]].
  destruct (Z.eqb_spec (da_nc ids) 1) as [Ec|Ec]; cbn [negb ifthrow bind]; [|right; split; [done|apply No2; intros (_ & ? & _); congruence]].
  rewrite (nt1 ids Ec). destruct (Z.eqb_spec (zlen (da_vals ids)) nb) as [En|En]; cbn [negb ifthrow bind]; [|right; split; [done|apply No2; intros (_ & _ & ? & _); congruence]].
  destruct (Z.eqb_spec (zlen (da_vals ids)) 0) as [E0|E0]; cbn [orb ifthrow bind]; [right; split; [done|apply No2; intros (_ & _ & _ & ? & _); lia]|].
  destruct (existsb (fun v => v <? 0) (da_vals ids)) eqn:Ex; cbn [ifthrow bind].
  - right. split; [done|]. apply No2. intros (_ & _ & _ & _ & Hv). apply existsb_exists in Ex as (v & Hin & Hlt). apply elem_of_list_In in Hin. specialize (Hv v Hin). lia.
  - left. exists k. split; [done|]. split; [|done]. split; [done|]. right. exists ids. split; [done|]. split; [done|]. split; [done|]. split; [done|]. split; [lia|]. intros v Hv. destruct (decide (0 <= v)); [done|]. exfalso.
    enough (existsb (fun v => v <? 0) (da_vals ids) = true) by congruence. apply existsb_exists. exists v. split; [by apply elem_of_list_In|lia].
Qed.
Lemma codeSum_case per trs pfls : (forall t, (exists v, per t = Ok v) \/ per t = Throw) ->
  (exists vs, codeSum per (code_of trs) pfls = Ok (zsum vs) /\ Forall2 (fun tr v => good_triple pfls tr /\ exists k, per tr.1.1 = Ok k /\ v = tr.1.2 * k) trs vs) \/
  (codeSum per (code_of trs) pfls = Throw /\ exists tr, tr ∈ trs /\ ~ (good_triple pfls tr /\ exists k, per tr.1.1 = Ok k)).
Proof.
  intros Hper. unfold codeSum. rewrite code_len. replace (3 * zlen trs) with (zlen trs * 3) by lia. rewrite Z.mod_mul, Z.quot_mul by lia. cbn [negb ifthrow Z.eqb]. pose proof (zlen_nonneg trs).
  match goal with |- context [forZ _ _ ?b _] => set (body := b) end.
  assert (Hb : forall i s tr, trs @ i = Some tr -> body i s = let* v := stepv per pfls tr in Ok (s + v)).
  { intros i s [[t nb] pos] Htr. destruct (code_at _ _ _ _ _ Htr) as (H1 & H2 & H3). unfold body, stepv. rewrite (rd_ok _ _ _ H1). cbn [bind]. destruct (per t) as [k| | |]; try done. cbn [bind]. rewrite (rd_ok _ _ _ H2). cbn [bind]. destruct (nb <? 0); [done|]. cbn [ifthrow]. rewrite (rd_ok _ _ _ H3). cbn [bind].
    match goal with |- context [if negb (pos =? -1) then ?x else ?y] => destruct (if negb (pos =? -1) then x else y) end; done. }
  set (sz := fun i => match trs @ i with Some tr => stepv per pfls tr | None => Throw end).
  destruct (all_or_one sz (zlen trs)) as [(vs & Hl & Hv)|(i & Hi & Ht)]; [lia|intros i Hi; unfold sz; destruct (trs @ i) as [tr|]; [|by right]; destruct (stepv_case per pfls tr Hper) as [(k & -> & _)|[-> _]]; [left; by eexists|by right]| |].
  - left. exists vs. split.
    + rewrite <- Hl. rewrite (forZ_sum body vs 0); [done|]. intros i v s Hiv. apply zlook_Some_lt in Hiv as ?. destruct (zlook_lt trs i ltac:(lia)) as [tr Htr]. rewrite (Hb i s tr Htr). specialize (Hv i v Hiv). unfold sz in Hv. rewrite Htr in Hv. by rewrite Hv.
    + apply F2_pair. split; [lia|]. intros i tr v Htr Hiv. specialize (Hv i v Hiv). unfold sz in Hv. rewrite Htr in Hv. destruct (stepv_case per pfls tr Hper) as [(k & E & Hg & Ek)|[E _]]; rewrite E in Hv; [|done]. injection Hv as <-. split; [done|]. by exists k.
  - right. destruct (zlook_lt trs i Hi) as [tr Htr]. unfold sz in Ht. rewrite Htr in Ht. split.
    + apply (forZ_throw body _ i); [done| |intros s; rewrite (Hb i s tr Htr), Ht; done]. intros k s Hk. destruct (zlook_lt trs k ltac:(lia)) as [tr' Htr']. rewrite (Hb k s tr' Htr'). destruct (stepv_case per pfls tr' Hper) as [(q & -> & _)|[-> _]]; [left; by eexists|by right].
    + exists tr. split; [by eapply zlook_elem|]. destruct (stepv_case per pfls tr Hper) as [(q & E & _)|[_ E]]; [congruence|done].
Qed.
Definition perOf (d : disc) (t : Z) : res Z := match d with GaussNE => let* k := GetCellModel t in throw_if cm_dyn k >>> Ok (cm_nbpts k) | _ => Ok 1 end.
Lemma perOf_case d t : (exists v, perOf d t = Ok v) \/ perOf d t = Throw.
Proof. destruct d; cbn [perOf]; try (left; by eexists). destruct (model_case t) as [[k ->]| ->]; [|by right]. cbn [bind]. destruct (cm_dyn k); [by right|left; by eexists]. Qed.
Lemma perOf_iff d t v : (forall g, d <> GaussPt g) -> perOf d t = Ok v <-> per_entity d t v.
Proof.
  intros Hd. destruct d as [| |g|]; cbn [perOf per_entity]; [split; congruence|split; congruence|by destruct (Hd g)|]. destruct (model_case t) as [[k Ek]|E].
  - rewrite Ek. cbn [bind]. destruct (cm_dyn k) eqn:Ed; cbn [ifthrow]; split; try done.
    + intros (k' & [= <-] & ? & _). congruence.
    + intros [= <-]. by exists k.
    + intros (k' & [= <-] & _ & ->). done.
  - rewrite E. split; [done|]. intros (k' & ? & _). congruence.
Qed.
Lemma expected_ok d trs pfls : (forall g, d <> GaussPt g) ->
  (exists vs, getNumberOfTuplesExpectedRegardingCode d (code_of trs) pfls = Ok (zsum vs) /\ Forall2 (fun tr v => good_triple pfls tr /\ exists k, per_entity d tr.1.1 k /\ v = tr.1.2 * k) trs vs) \/
  (getNumberOfTuplesExpectedRegardingCode d (code_of trs) pfls = Throw /\ exists tr, tr ∈ trs /\ ~ (good_triple pfls tr /\ exists k, per_entity d tr.1.1 k)).
Proof.
  intros Hd. assert (E : getNumberOfTuplesExpectedRegardingCode d (code_of trs) pfls = codeSum (perOf d) (code_of trs) pfls) by (destruct d as [| |g|]; [done|done|by destruct (Hd g)|done]). rewrite E.
  destruct (codeSum_case (perOf d) trs pfls (perOf_case d)) as [(vs & E1 & H1)|(E1 & tr & Hin & H1)]; [left; exists vs|right]; (split; [done|]).
  - eapply Forall2_impl; [exact H1|]. intros tr v (Hg & k & Ek & ->). split; [done|]. exists k. split; [by apply perOf_iff|done].
  - exists tr. split; [done|]. intros (Hg & k & Hk). apply H1. split; [done|]. exists k. by apply perOf_iff.
Qed.
Lemma zsum_counts pfls (trs : list (Z * Z * Z)) vs : Forall2 (fun tr v => good_triple pfls tr /\ exists k, Ok 1 = Ok k /\ v = tr.1.2 * k) trs vs -> vs = (fun tr => tr.1.2) <$> trs.
Proof. intros H. induction H as [|tr v l k (_ & q & [= <-] & ->) _ IH]; [done|]. rewrite fmap_cons, IH. f_equal. lia. Qed.
Lemma expected_gauss g m cells ns trs pfls : stores m cells -> sizes (GaussPt g) cells ns ->
  (Forall (good_triple pfls) trs /\ zsum ((fun tr => tr.1.2) <$> trs) = zlen cells /\ getNumberOfTuplesExpectedRegardingCode (GaussPt g) (code_of trs) pfls = Ok (zsum ns)) \/
  (~ (Forall (good_triple pfls) trs /\ zsum ((fun tr => tr.1.2) <$> trs) = zlen cells) /\ getNumberOfTuplesExpectedRegardingCode (GaussPt g) (code_of trs) pfls = Throw).
Proof.
  intros Hs Hz. pose proof (tuples_ok _ m cells ns Hs Hz) as Et. cbn [getNumberOfTuples] in Et. destruct Hz as (dpc & E & Hl & _). cbn [getNumberOfTuplesExpectedRegardingCode]. rewrite E.
  destruct (codeSum_case (fun _ => Ok 1) trs pfls) as [(vs & E1 & H1)|(E1 & tr & Hin & H1)]; [intros t; left; by eexists| |].
  - rewrite E1. cbn [bind]. apply zsum_counts in H1 as Hvs. rewrite Hvs, Hl. destruct (Z.eqb_spec (zsum ((fun tr => tr.1.2) <$> trs)) (zlen cells)) as [Hq|Hq]; cbn [negb ifthrow]; [left|right].
    + split; [|done]. apply Forall_forall. intros tr Hin. apply elem_of_list_lookup in Hin as [i Hi]. destruct (Forall2_lookup_l _ _ _ _ _ H1 Hi) as (v & _ & Hg & _). done.
    + split; [|done]. by intros [_ ?].
  - right. rewrite E1. split; [|done]. intros [Hf _]. apply H1. split; [|by eexists]. by apply (proj1 (Forall_forall _ _) Hf).
Qed.
Lemma code_shape d code pfls : zlen code mod 3 <> 0 -> getNumberOfTuplesExpectedRegardingCode d code pfls = Throw.
Proof.
  intros H. assert (E : forall per, codeSum per code pfls = Throw) by (intros per; unfold codeSum; replace (zlen code mod 3 =? 0) with false by lia; done).
  destruct d as [| |g|]; cbn [getNumberOfTuplesExpectedRegardingCode]; rewrite ?E; try done. by destruct (gd_dpc g).
Qed.
