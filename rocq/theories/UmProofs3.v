From Coq Require Import QArith ZifyBool ZifyNat.
From stdpp Require Import gmap.
From Verif Require Import Base DataArray ArrLib FillLib IndexSpec IndexProofs4 SkySpec SkyProofs SkyProofs4 CellTable UmModel UmSpec UmProofs UmProofs2.
Local Open Scope Z_scope.

(** * Types *)
Lemma insertType_elem t l x : x ∈ insertType t l <-> x = t \/ x ∈ l.
Proof.
  induction l as [|y r IH]; cbn [insertType]; [rewrite elem_of_list_singleton, elem_of_nil; tauto|].
  destruct (t <? y) eqn:E1; [by rewrite elem_of_cons|]. destruct (Z.eqb_spec t y) as [->|Hn]; [rewrite elem_of_cons; tauto|]. rewrite !elem_of_cons, IH. tauto.
Qed.
Lemma insertType_asc t l : ascending l -> ascending (insertType t l).
Proof.
  induction l as [|y r IH]; cbn [insertType ascending]; [intros _; split; [intros z Hz; by apply elem_of_nil in Hz|done]|]. intros [H1 H2].
  destruct (t <? y) eqn:E1; [cbn [ascending]; split; [|done]; intros z Hz; apply elem_of_cons in Hz as [->|Hz]; [lia|]; specialize (H1 z Hz); lia|].
  destruct (Z.eqb_spec t y); [done|]. cbn [ascending]. split; [|auto]. intros z Hz. apply insertType_elem in Hz as [->|Hz]; [lia|auto].
Qed.
Lemma sky_snoc {A} (ps : list (list A)) p vals idx : skyline ps vals idx -> skyline (ps ++ [p]) (vals ++ p) (idx ++ [zlen vals + zlen p]).
Proof.
  intros [-> Hp]. split; [rewrite concat_app; cbn [concat]; rewrite app_nil_r; done|]. rewrite fmap_app. rewrite zlen_concat. apply (psums_snoc _ _ (zlen p)). done.
Qed.
Lemma sky_back {A} (ps : list (list A)) vals idx : skyline ps vals idx -> idx @ (zlen idx - 1) = Some (zlen vals) /\ zlen idx <> 0.
Proof.
  intros [-> Hp]. pose proof (proj1 Hp) as Hl. pose proof (zlen_nonneg (zlen <$> ps)). replace (zlen idx - 1) with (zlen (zlen <$> ps)) by lia. rewrite (psums_last _ _ Hp), zlen_concat. split; [done|lia].
Qed.

(** * Building *)
Lemma allocate_ok m n : 0 <= n -> exists m', allocateCells m n = Ok m' /\ stores m' [] /\ typed m' [] /\ um_dim m' = um_dim m /\ um_coords m' = um_coords m.
Proof.
  intros Hn. unfold allocateCells, ifthrow. replace (n <? 0) with false by lia. eexists. split; [done|]. split; [exists [], [0]; split; [done|]; split; [done|]; split; [done|apply psums_nil]|]. split; [|done].
  split; [done|]. intros t. rewrite elem_of_nil. split; [done|]. intros (c & Hc & _). by apply elem_of_nil in Hc.
Qed.
Lemma insert_ok m cells t ns : stores m cells -> typed m cells -> insertable (um_dim m) (t, ns) ->
  exists m', insertNextCell m t (zlen ns) ns = Ok m' /\ stores m' (cells ++ [(t, ns)]) /\ typed m' (cells ++ [(t, ns)]) /\ um_dim m' = um_dim m /\ um_coords m' = um_coords m.
Proof.
  intros Hs [Ha Ht] (k & Hk & Hd & Hn). destruct (stores_get _ _ Hs) as (conn & connI & H1 & H2 & H3 & H4). unfold insertNextCell. cbn [fst snd] in *. rewrite Hk. cbn [bind]. rewrite H2, H1, Hd, Z.eqb_refl.
  assert (negb (cm_dyn k) && negb (zlen ns =? cm_nbpts k) = false) as ->. { destruct (cm_dyn k); [done|]. rewrite Hn by done. rewrite Z.eqb_refl. done. }
  destruct (sky_back _ _ _ H3) as [Hb Hb0]. unfold ifthrow. replace (zlen connI =? 0) with false by lia. rewrite (rd_ok _ _ _ Hb). cbn [bind]. unfold writeOnPlace, ubif.
  pose proof (zlen_nonneg conn). pose proof (zlen_nonneg ns). replace (_ || _ || _ || _) with false by lia. cbn [bind]. eexists. split; [done|]. split; [|split; [|done]].
  - exists (conn ++ pk (t, ns)), (connI ++ [zlen conn + zlen (pk (t, ns))]). cbn [um_conn um_connI]. split; [|split].
    + rewrite !take_ge by (unfold zlen; lia). rewrite drop_ge by (unfold zlen; lia). rewrite app_nil_r. done.
    + rewrite zlen_pk. cbn [snd]. replace (zlen conn + (1 + zlen ns)) with (zlen conn + zlen ns + 1) by lia. done.
    + rewrite fmap_app. apply (sky_snoc _ _ _ _ H3).
  - split; [by apply insertType_asc|]. intros x. cbn [um_types]. rewrite insertType_elem, Ht. split.
    + intros [->|(c & Hc & <-)]; [exists (t, ns); split; [apply elem_of_app; right; left|done]|exists c; split; [apply elem_of_app; by left|done]].
    + intros (c & Hc & <-). apply elem_of_app in Hc as [Hc|Hc]; [right; eauto|]. apply elem_of_list_singleton in Hc as ->. by left.
Qed.
Lemma insert_throw m cells t ns : stores m cells -> typed m cells -> insertNextCell m t (zlen ns) ns = Throw <-> ~ insertable (um_dim m) (t, ns).
Proof.
  intros Hs Ht. split.
  - intros E Hi. destruct (insert_ok m cells t ns Hs Ht Hi) as (m' & Em & _). congruence.
  - intros Hi. destruct (stores_get _ _ Hs) as (conn & connI & H1 & H2 & H3 & H4). unfold insertNextCell. destruct (GetCellModel t) as [k| | |] eqn:Ek.
    2:{ done. } 2:{ exfalso. revert Ek. unfold GetCellModel. destruct (List.find _ _); done. } 2:{ exfalso. revert Ek. unfold GetCellModel. destruct (List.find _ _); done. }
    cbn [bind]. rewrite H2. destruct (Z.eqb_spec (cm_dim k) (um_dim m)) as [Ed|]; [|done]. destruct (negb (cm_dyn k) && negb (zlen ns =? cm_nbpts k)) eqn:E; [done|]. exfalso. apply Hi. exists k. split; [done|]. split; [done|].
    intros Hf. rewrite Hf in E. cbn [fst snd]. lia.
Qed.

(** * Checks *)
Lemma forallb_elem {A} (f : A -> bool) l : forallb f l = true <-> forall x, x ∈ l -> f x = true.
Proof. rewrite forallb_forall. split; intros H x Hx; apply H; by apply elem_of_list_In. Qed.
Lemma check_fold {A} (ok : A -> bool) (body : unit -> A -> res unit) l : (forall x, x ∈ l -> body tt x = if ok x then Ok tt else Throw) -> foldM body l tt = if forallb ok l then Ok tt else Throw.
Proof.
  induction l as [|x l IH]; intros H; [done|]. cbn [foldM forallb]. rewrite H by left. destruct (ok x); [|done]. cbn [bind andb]. apply IH. intros; apply H; by right.
Qed.
Lemma check_loop {A} (ok : A -> bool) (body : Z -> unit -> res unit) (l : list A) : (forall i x, l @ i = Some x -> body i tt = if ok x then Ok tt else Throw) ->
  forZ 0 (zlen l) body tt = if forallb ok l then Ok tt else Throw.
Proof.
  assert (G : forall k, (forall i x, l @ i = Some x -> body (k + i) tt = if ok x then Ok tt else Throw) -> forZ k (k + zlen l) body tt = if forallb ok l then Ok tt else Throw).
  { induction l as [|x l IH]; intros k H; [apply forZ_empty; rewrite zlen_nil; lia|]. rewrite zlen_cons. pose proof (zlen_nonneg l). rewrite forZ_step by lia. cbn [forallb].
    pose proof (H 0 x eq_refl) as Hx0. rewrite Z.add_0_r in Hx0. rewrite Hx0. destruct (ok x); [|done]. cbn [bind andb]. replace (k + (1 + zlen l)) with (k + 1 + zlen l) by lia. apply IH.
    intros i y Hy. apply zlook_Some_lt in Hy as ?. replace (k + 1 + i) with (k + (i + 1)) by lia. apply H. rewrite zlook_cons. replace (i + 1 =? 0) with false by lia. replace (i + 1 - 1) with i by lia. done. }
  intros H. apply (G 0). done.
Qed.
Definition oknode (nb : Z) (poly : bool) (v : Z) : bool := if 0 <=? v then v <? nb else (v =? -1) && poly.
Definition validb (dim nb : Z) (c : cell) : bool :=
  match GetCellModel c.1 with
  | Ok k => (cm_dim k =? dim) && negb (negb (cm_dyn k) && negb (zlen c.2 =? cm_nbpts k)) &&
      negb (cm_quad k && cm_dyn k && (dim =? 2) && (negb (Z.rem (zlen c.2) 2 =? 0) || (zlen c.2 <? 4))) && forallb (oknode nb (c.1 =? NORM_POLYHED)) c.2
  | _ => false
  end.
Lemma rem_even n : 0 <= n -> Z.rem n 2 = 0 <-> Z.Even n.
Proof.
  intros Hn. rewrite Z.rem_mod_nonneg by lia. split; [intros H; exists (n / 2); pose proof (Z.div_mod n 2); lia|]. intros [k ->]. rewrite Z.mul_comm, Z.mod_mul by lia. done.
Qed.
Lemma validb_ok dim nb c : validb dim nb c = true <-> valid_cell dim nb c.
Proof.
  unfold validb, valid_cell. pose proof (rem_even _ (zlen_nonneg c.2)) as Hre. destruct (GetCellModel c.1) as [k| | |] eqn:Ek.
  2,3,4: split; [done|]; intros (k & H & _); done.
  rewrite !andb_true_iff, forallb_elem. split.
  - intros (((H1 & H2) & H3) & H4). exists k. split; [done|]. split; [lia|]. split; [intros E; rewrite E in H2; lia|]. split.
    + intros E1 E2 E3. rewrite E1, E2 in H3. destruct (Z.eqb_spec dim 2); [|done]. cbn [andb] in H3. rewrite <- Hre. lia.
    + intros n Hn. specialize (H4 n Hn). unfold oknode in H4. destruct (0 <=? n) eqn:En; lia.
  - intros (k' & [= <-] & H1 & H2 & H3 & H4). split; [split; [split; [lia|]|]|].
    + destruct (cm_dyn k); [done|]. rewrite H2 by done. rewrite Z.eqb_refl. done.
    + destruct (cm_quad k), (cm_dyn k); try done. destruct (Z.eqb_spec dim 2); [|done]. destruct (H3 eq_refl eq_refl e) as [Hev H4']. apply Hre in Hev. cbn [andb]. rewrite Hev. replace (zlen c.2 <? 4) with false by lia. done.
    + intros n Hn. unfold oknode. destruct (H4 n Hn) as [Hr|[-> ->]]; [replace (0 <=? n) with true by lia; lia|]. done.
Qed.
Lemma getCellModel_dim t k : GetCellModel t = Ok k -> 0 <= cm_dim k.
Proof.
  unfold GetCellModel. destruct (List.find _ models) as [c|] eqn:E; [|done]. intros [= <-]. apply find_some in E as [Hin _].
  assert (H : forallb (fun c => 0 <=? cm_dim c) models = true) by (vm_compute; done). rewrite forallb_forall in H. specialize (H c Hin). lia.
Qed.
Lemma getCellModel_cases t : GetCellModel t = Throw \/ exists k, GetCellModel t = Ok k.
Proof. unfold GetCellModel. destruct (List.find _ _); eauto. Qed.
Definition okdim (dim t : Z) : bool := match GetCellModel t with Ok k => cm_dim k =? dim | _ => false end.
Lemma light_eq m cells : stores m cells -> is_Some (um_coords m) -> checkConsistencyLight m = if (-1 <=? um_dim m) && forallb (okdim (um_dim m)) (um_types m) then Ok tt else Throw.
Proof.
  intros Hs [d Hd]. destruct (stores_get _ _ Hs) as (conn & connI & H1 & H2 & H3 & H4). unfold checkConsistencyLight, ifthrow. rewrite Hd, H1, H2. destruct (um_dim m <? -1) eqn:Ed; [replace (-1 <=? um_dim m) with false by lia; done|].
  replace (-1 <=? um_dim m) with true by lia. cbn [andb]. rewrite !bool_decide_true by eauto. cbn [negb]. rewrite andb_false_r. cbn [andb].
  rewrite (check_fold (okdim (um_dim m))); [|intros t _; unfold okdim; destruct (getCellModel_cases t) as [->|[k ->]]; cbn [bind]; [done|]; unfold ifthrow; destruct (cm_dim k =? um_dim m); done].
  destruct (forallb _ _); done.
Qed.
Lemma inner_check P ns R (body : Z -> unit -> res unit) (ok : Z -> bool) : (forall v, v ∈ ns -> body v tt = if ok v then Ok tt else Throw) ->
  forZ (zlen P) (zlen P + zlen ns) (fun j s => let* v := rd (P ++ ns ++ R) j in body v s) tt = if forallb ok ns then Ok tt else Throw.
Proof. intros H. rewrite inner_loop. apply check_fold. exact H. Qed.
Lemma split_pk P c R : P ++ pk c ++ R = (P ++ [c.1]) ++ c.2 ++ R.
Proof. unfold pk. rewrite <- app_assoc. done. Qed.
Lemma zlen_snoc1 {A} (P : list A) x : zlen (P ++ [x]) = zlen P + 1.
Proof. rewrite zlen_app. done. Qed.
Lemma check_eq m cells nb : stores m cells -> typed m cells -> has_nodes m nb -> checkConsistency m = if (-1 <=? um_dim m) && forallb (validb (um_dim m) nb) cells then Ok tt else Throw.
Proof.
  intros Hs [_ Ht] (d & Hd & Hda & Hdw & Hnb). unfold checkConsistency. rewrite (light_eq m cells Hs) by eauto.
  assert (Hdim : forallb (okdim (um_dim m)) (um_types m) = false -> forallb (validb (um_dim m) nb) cells = false).
  { intros H. destruct (forallb (validb _ _) cells) eqn:E; [|done]. exfalso. rewrite forallb_elem in E. assert (forallb (okdim (um_dim m)) (um_types m) = true); [|congruence]. apply forallb_elem. intros t Hty. apply Ht in Hty as (c & Hc & <-).
    specialize (E c Hc). unfold validb, okdim in *. destruct (GetCellModel c.1); [|done..]. destruct (cm_dim _ =? _); done. }
  destruct (-1 <=? um_dim m) eqn:Edm; [|done]. cbn [andb]. destruct (forallb (okdim (um_dim m)) (um_types m)) eqn:El; [|by rewrite Hdim]. cbn [bind]. destruct (Z.eqb_spec (um_dim m) (-1)) as [E1|E1].
  - assert (cells = []) as ->; [|done]. destruct cells as [|c r]; [done|]. exfalso. rewrite forallb_elem in El. specialize (El c.1). unfold okdim in El. destruct (GetCellModel c.1) as [k| | |] eqn:Ek.
    2,3,4: by assert (false = true) by (apply El, Ht; exists c; split; [left|done]). pose proof (getCellModel_dim _ _ Ek). assert ((cm_dim k =? um_dim m) = true) by (apply El, Ht; exists c; split; [left|done]). lia.
  - unfold getNumberOfNodes. rewrite Hd, Hnb. cbn [bind]. rewrite (numCells_ok _ _ Hs). cbn [bind]. destruct (stores_get _ _ Hs) as (conn & connI & H1 & H2 & H3 & H4). unfold unchecked. rewrite H1, H2.
    apply check_loop. intros i c Hc. destruct (cell_at _ _ _ _ _ H3 Hc) as (a & Ha & Hb & Ha0 & Hbl & P & R & Econn & HP). rewrite (rd_ok _ _ _ Ha). cbn [bind].
    assert (conn @ a = Some c.1) as Hca. { rewrite Econn, zlook_app_r by lia. rewrite HP, Z.sub_diag. done. }
    rewrite (rd_ok _ _ _ Hca). cbn [bind]. unfold validb. destruct (getCellModel_cases c.1) as [->|[k ->]]; [done|]. cbn [bind]. unfold ifthrow at 1. destruct (cm_dim k =? um_dim m); [|done]. cbn [negb andb].
    rewrite (rd_ok _ _ _ Hb). cbn [bind]. replace (a + 1 + zlen c.2 - a - 1) with (zlen c.2) by lia. unfold ifthrow at 1. destruct (negb (cm_dyn k) && negb (zlen c.2 =? cm_nbpts k)); [done|]. cbn [negb andb].
    unfold ifthrow at 1. destruct (cm_quad k && _ && _ && _); [done|]. cbn [negb andb]. unfold ubif. pose proof (zlen_nonneg c.2). replace (_ <? _) with false by lia.
    rewrite Econn, split_pk. rewrite <- HP, <- (zlen_snoc1 P c.1).
    apply (inner_check (P ++ [c.1]) c.2 R (fun nodeId _ => if 0 <=? nodeId then throw_if (nb <=? nodeId) >>> Ok tt else if nodeId <? -1 then Throw else throw_if negb (c.1 =? NORM_POLYHED) >>> Ok tt)).
    intros v _. unfold oknode, ifthrow. destruct (0 <=? v) eqn:Ev; [destruct (nb <=? v) eqn:?; [replace (v <? nb) with false by lia|replace (v <? nb) with true by lia]; done|].
    destruct (v <? -1) eqn:?; [replace (v =? -1) with false by lia; done|]. replace (v =? -1) with true by lia. destruct (c.1 =? NORM_POLYHED); done.
Qed.
Lemma check_ok m cells nb : stores m cells -> typed m cells -> has_nodes m nb ->
  (checkConsistency m = Ok tt <-> -1 <= um_dim m /\ forall c, c ∈ cells -> valid_cell (um_dim m) nb c) /\ (checkConsistency m = Ok tt \/ checkConsistency m = Throw).
Proof.
  intros Hs Ht Hn. rewrite (check_eq m cells nb Hs Ht Hn). destruct ((-1 <=? um_dim m) && forallb (validb (um_dim m) nb) cells) eqn:E; (split; [|eauto]).
  - split; [intros _|done]. apply andb_true_iff in E as [E1 E2]. split; [lia|]. intros c Hc. apply validb_ok. rewrite forallb_elem in E2. auto.
  - split; [done|]. intros [H1 H2]. exfalso. apply andb_false_iff in E as [E|E]; [lia|]. assert (forallb (validb (um_dim m) nb) cells = true); [|congruence]. apply forallb_elem. intros c Hc. apply validb_ok. auto.
Qed.
Lemma dups_len (l : list Z) : zlen (remove_dups l) <= zlen l /\ (zlen (remove_dups l) = zlen l <-> NoDup l).
Proof.
  induction l as [|x l [IH1 IH2]]; [split; [done|]; split; [intros; constructor|done]|]. cbn [remove_dups]. case_decide as Hd.
  - rewrite zlen_cons. split; [lia|]. split; [lia|]. intros H. apply NoDup_cons in H as [H _]. done.
  - rewrite !zlen_cons. split; [lia|]. rewrite NoDup_cons. split; [intros H; split; [done|]; apply IH2; lia|]. intros [_ H]. apply IH2 in H. lia.
Qed.
Lemma collect_ok P ns R : forZ (zlen P) (zlen P + zlen ns) (fun j (l : list Z) => let* v := rd (P ++ ns ++ R) j in Ok (l ++ [v])) [] = Ok ns.
Proof.
  rewrite (inner_loop P ns R (fun v (l : list Z) => Ok (l ++ [v])) []). assert (G : forall (l s : list Z), foldM (fun (s : list Z) v => Ok (s ++ [v])) l s = Ok (s ++ l)); [|apply (G ns [])].
  induction l as [|x l IH]; intros s; cbn [foldM]; [by rewrite app_nil_r|]. cbn [bind]. rewrite IH, <- app_assoc. done.
Qed.
Lemma geom_ok m cells nb : stores m cells -> typed m cells -> has_nodes m nb ->
  (checkGeomConsistency m = Ok tt <-> (-1 <= um_dim m /\ forall c, c ∈ cells -> valid_cell (um_dim m) nb c) /\ forall c, c ∈ cells -> NoDup c.2) /\ (checkGeomConsistency m = Ok tt \/ checkGeomConsistency m = Throw).
Proof.
  intros Hs Ht Hn. destruct (check_ok m cells nb Hs Ht Hn) as [Hc Hcc]. unfold checkGeomConsistency. destruct (checkConsistency m) as [[]| | |] eqn:E.
  3,4: exfalso; destruct Hcc; congruence. 2:{ cbn [bind]. split; [|eauto]. split; [done|]. intros [H _]. exfalso. apply Hc in H. done. }
  cbn [bind]. rewrite (numCells_ok _ _ Hs). cbn [bind]. destruct (stores_get _ _ Hs) as (conn & connI & H1 & H2 & H3 & H4). unfold unchecked. rewrite H1, H2.
  rewrite (check_loop (fun c : cell => zlen (remove_dups c.2) =? zlen c.2)).
  - destruct (forallb _ cells) eqn:Ef; (split; [|eauto]).
    + split; [|done]. intros _. split; [by apply Hc|]. intros c Hin. rewrite forallb_elem in Ef. specialize (Ef c Hin). cbn beta in Ef. apply (proj2 (dups_len c.2)). lia.
    + split; [done|]. intros [_ H]. exfalso. assert (forallb (fun c : cell => zlen (remove_dups c.2) =? zlen c.2) cells = true); [|congruence]. apply forallb_elem. intros c Hin. apply Z.eqb_eq, (proj2 (dups_len c.2)). auto.
  - intros i c Hi. destruct (cell_at _ _ _ _ _ H3 Hi) as (a & Ha & Hb & Ha0 & Hbl & P & R & Econn & HP). rewrite (rd_ok _ _ _ Ha), (rd_ok _ _ _ Hb). cbn [bind]. unfold ubif. pose proof (zlen_nonneg c.2). replace (_ <? _) with false by lia.
    rewrite Econn, split_pk. rewrite <- HP, <- (zlen_snoc1 P c.1). rewrite collect_ok. cbn [bind]. unfold ifthrow. rewrite zlen_snoc1. replace (zlen P + 1 + zlen c.2 - zlen P - 1) with (zlen c.2) by lia. destruct (_ =? _); done.
Qed.
