(** Removal of the localizations that no cell has; setting localizations on types and on cells. *)
From Coq Require Import QArith Qabs ZifyBool ZifyNat.
From Verif Require Import Base DataArray ArrLib FillLib IndexModel IndexSpec IndexProofs6 SkyModel SkyProofs CellTable UmModel UmSpec UmProofs UmProofs2 UcModel GlModel GlSpec.
Local Open Scope Z_scope.

(** * The integers below [n] that satisfy [P], in order *)
Section filter.
  Variable P : Z -> bool.
  Definition kept (n : Z) : list Z := List.filter P (seqZ 0 n).
  Definition rank (n : Z) : Z := zlen (kept n).
  Lemma kept_succ n : 0 <= n -> kept (n + 1) = kept n ++ if P n then [n] else [].
  Proof using. intros H. unfold kept. rewrite seqZ_app_r by done. rewrite List.filter_app. cbn [List.filter]. replace (0 + n) with n by lia. reflexivity. Qed.
  Lemma kept_0 : kept 0 = [].
  Proof using. done. Qed.
  Lemma rank_succ n : 0 <= n -> rank (n + 1) = rank n + if P n then 1 else 0.
  Proof using. intros H. unfold rank. rewrite kept_succ by done. rewrite zlen_app. destruct (P n); [change (zlen [n]) with 1|change (zlen (@nil Z)) with 0]; lia. Qed.
  Lemma kept_at (n : Z) : 0 <= n -> forall k i, kept n @ k = Some i <-> 0 <= i < n /\ P i = true /\ rank i = k.
  Proof using.
    intros Hn. pattern n. apply natlike_ind; [| |done].
    - intros k i. rewrite kept_0, zlook_nil. split; [done|lia].
    - clear n Hn. intros n Hn IH k i. change (Z.succ n) with (n + 1). rewrite kept_succ by done. split.
      + intros H. apply zlook_Some_lt in H as Hr. destruct (decide (k < zlen (kept n))) as [Hlt|Hge].
        * rewrite zlook_app_l in H by lia. apply IH in H as (? & ? & ?). split; [lia|done].
        * rewrite zlook_app_r in H by lia. destruct (P n) eqn:Pn; [|by rewrite zlook_nil in H]. rewrite zlook_cons in H. destruct (Z.eqb_spec (k - zlen (kept n)) 0) as [E|]; [|by rewrite zlook_nil in H]. injection H as <-. split; [lia|]. split; [done|]. unfold rank. lia.
      + intros (Hi & HP & Hk). destruct (decide (i = n)) as [->|].
        * rewrite HP. rewrite zlook_app_r by (unfold rank in Hk; lia). unfold rank in Hk. rewrite <- Hk, Z.sub_diag. done.
        * assert (H : kept n @ k = Some i) by (apply IH; split; [lia|done]). apply zlook_Some_lt in H as Hr. rewrite zlook_app_l by lia. done.
  Qed.
  Lemma rank_range n : 0 <= n -> 0 <= rank n <= n.
  Proof using. intros Hn. pattern n. apply natlike_ind; [done| |done]. clear n Hn. intros n Hn IH. change (Z.succ n) with (n + 1). rewrite rank_succ by done. destruct (P n); lia. Qed.
  Lemma rank_full n : 0 <= n -> rank n = n -> forall i, 0 <= i < n -> P i = true.
  Proof using.
    intros Hn. pattern n. apply natlike_ind; [intros; lia| |done]. clear n Hn. intros n Hn IH E i Hi. change (Z.succ n) with (n + 1) in *. rewrite rank_succ in E by done. pose proof (rank_range n Hn). destruct (P n) eqn:Pn; [|lia]. destruct (decide (i = n)) as [->|]; [done|]. apply IH; lia.
  Qed.
  Lemma rank_id n : 0 <= n -> (forall i, 0 <= i < n -> P i = true) -> rank n = n.
  Proof using. intros Hn. pattern n. apply natlike_ind; [done| |done]. clear n Hn. intros n Hn IH H. change (Z.succ n) with (n + 1) in *. rewrite rank_succ by done. rewrite H by lia. rewrite IH; [lia|]. intros. apply H. lia. Qed.
  Lemma kept_elem n i : 0 <= n -> i ∈ kept n <-> 0 <= i < n /\ P i = true.
  Proof using. intros Hn. rewrite elem_of_zlook. split; [intros (k & Hk); apply kept_at in Hk; tauto|intros [H1 H2]; exists (rank i); apply kept_at; done]. Qed.
  Lemma kept_ascending n : 0 <= n -> ascending (kept n).
  Proof using.
    intros Hn. unfold kept. generalize 0 at 1. pattern n. apply natlike_ind; [done| |done]. clear n Hn. intros n Hn IH z. rewrite seqZ_cons by lia. cbn [List.filter]. replace (Z.pred (Z.succ n)) with n by lia. destruct (P z); [|apply IH].
    cbn. split; [|apply IH]. intros y Hy. apply elem_of_list_In, List.filter_In in Hy as [Hy _]. apply elem_of_list_In, elem_of_seqZ in Hy. lia.
  Qed.
End filter.

Lemma zip_ok g dpc : gd_dpc g = Some dpc -> (forall id, id ∈ dpc -> id = -1 \/ 0 <= id < zlen (gd_loc g)) ->
  exists dpc' loc', zipGaussLocalizations g = Ok (GD (Some dpc') loc') /\ zlen dpc' = zlen dpc /\
    (forall id, id ∈ dpc' -> id = -1 \/ 0 <= id < zlen loc') /\ (forall c, loc_of (GD (Some dpc') loc') c = loc_of g c) /\
    (forall c, dpc' @ c = Some (-1) <-> dpc @ c = Some (-1)) /\ (forall id, 0 <= id < zlen loc' -> id ∈ dpc') /\
    exists ids, ascending ids /\ (forall id, id ∈ ids <-> 0 <= id /\ id ∈ dpc) /\ Forall2 (fun id l => gd_loc g @ id = Some l) ids loc'.
Proof.
  intros Hd Hv. unfold zipGaussLocalizations. rewrite Hd. set (sz := zlen (gd_loc g)). assert (0 <= sz) by apply zlen_nonneg.
  set (P := fun i => bool_decide (i ∈ dpc)).
  match goal with |- context [foldM ?f dpc ?s0] => assert (W : wp (foldM f dpc s0) (fun t => zlen t = sz /\ forall i, 0 <= i < sz -> t @ i = Some (if P i then 1 else -2)) False) end.
  { apply (wp_foldM _ (fun pre t => zlen t = sz /\ forall i, 0 <= i < sz -> t @ i = Some (if bool_decide (i ∈ pre) then 1 else -2))).
    - split; [rewrite zlen_replicate; lia|]. intros i Hi. rewrite zlook_replicate by lia. rewrite bool_decide_eq_false_2; [done|apply not_elem_of_nil].
    - intros pre x post t El [Hl Ht]. assert (Hx : x ∈ dpc) by (rewrite El; apply elem_of_app; right; left). destruct (Hv x Hx) as [->|Hr].
      + cbn. split; [done|]. intros i Hi. rewrite Ht by done. f_equal. erewrite bool_decide_ext; [reflexivity|]. rewrite elem_of_app, elem_of_list_singleton. split; [by left|intros [?|?]; [done|lia]].
      + replace (0 <=? x) with true by lia. rewrite wr_ok by lia. cbn. split; [by rewrite zlen_zset|]. intros i Hi. rewrite zlook_zset by lia. destruct (decide (i = x)) as [->|].
        * rewrite Z.eqb_refl. rewrite bool_decide_eq_true_2; [done|]. apply elem_of_app. right. left.
        * replace (i =? x) with false by lia. rewrite Ht by done. f_equal. erewrite bool_decide_ext; [reflexivity|]. rewrite elem_of_app, elem_of_list_singleton. split; [by left|intros [?|?]; [done|lia]].
    - intros t Ht. exact Ht. }
  apply wp_ok in W as (tmp & -> & Htl & Ht). cbn [bind].
  match goal with |- context [forZ 0 sz ?f (tmp, 0)] => assert (W : wp (forZ 0 sz f (tmp, 0)) (fun s => s.2 = rank P sz /\ zlen s.1 = sz /\ forall i, 0 <= i < sz -> s.1 @ i = Some (if P i then rank P i else -2)) False) end.
  { apply (wp_forZ (fun i s => s.2 = rank P i /\ zlen s.1 = sz /\ (forall j, 0 <= j < i -> s.1 @ j = Some (if P j then rank P j else -2)) /\ forall j, i <= j < sz -> s.1 @ j = Some (if P j then 1 else -2))).
    - lia.
    - cbn. split; [done|]. split; [done|]. split; [intros; lia|]. intros j Hj. apply Ht. lia.
    - intros i [t fid] Hi (E1 & E2 & E3 & E4). cbn in E1, E2, E3, E4. rewrite (rd_ok _ _ _ (E4 i ltac:(lia))). cbn [bind]. subst fid. destruct (P i) eqn:HP.
      + cbn [negb Z.eqb]. rewrite wr_ok by lia. cbn. rewrite rank_succ, HP by lia. split; [done|]. split; [by rewrite zlen_zset|]. split.
        * intros j Hj. rewrite zlook_zset by lia. destruct (Z.eqb_spec j i) as [->|]; [by rewrite HP|]. apply E3. lia.
        * intros j Hj. rewrite zlook_zset by lia. replace (j =? i) with false by lia. apply E4. lia.
      + cbn. rewrite rank_succ, HP by lia. split; [lia|]. split; [done|]. split.
        * intros j Hj. destruct (decide (j = i)) as [->|]; [rewrite E4 by lia; by rewrite HP|]. apply E3. lia.
        * intros j Hj. apply E4. lia.
    - intros s (E1 & E2 & E3 & E4). done. }
  apply wp_ok in W as ([tmp2 fid] & -> & Hf & Htl2 & Ht2). cbn in Hf, Htl2, Ht2. cbn [bind]. subst fid.
  destruct (Z.eqb_spec (rank P sz) sz) as [Efull|Hne].
  { pose proof (rank_full P sz ltac:(lia) Efull) as Hall. exists dpc, (gd_loc g). destruct g as [od loc]. cbn in *. subst od. split; [done|]. split; [done|]. split; [done|]. split; [done|]. split; [done|]. split.
    - intros id Hid. specialize (Hall id Hid). unfold P in Hall. apply bool_decide_eq_true in Hall. done.
    - exists (kept P sz). split; [by apply kept_ascending|]. split.
      + intros id. rewrite kept_elem by done. unfold P. rewrite bool_decide_eq_true. split; [tauto|]. intros [H1 H2]. destruct (Hv id H2); [lia|]. split; [lia|done].
      + apply Forall2_same_length_lookup. split.
        * assert (E : zlen (kept P sz) = zlen loc) by exact Efull. unfold zlen in E. lia.
        * intros i x l Hx Hl. assert (Hx' : kept P sz @ Z.of_nat i = Some x) by (rewrite zlook_to_nat by lia; rewrite Nat2Z.id; done). apply kept_at in Hx' as (H1 & H2 & H3); [|done]. rewrite rank_id in H3; [|lia|intros; apply Hall; lia]. subst x. rewrite zlook_to_nat by lia. rewrite Nat2Z.id. done. }
  match goal with |- context [forZ 0 (zlen dpc) ?f dpc] => assert (W : wp (forZ 0 (zlen dpc) f dpc) (fun d => zlen d = zlen dpc /\ forall c id, dpc @ c = Some id -> d @ c = Some (if 0 <=? id then rank P id else id)) False) end.
  { apply (wp_forZ (fun i d => zlen d = zlen dpc /\ (forall c id, c < i -> dpc @ c = Some id -> d @ c = Some (if 0 <=? id then rank P id else id)) /\ forall c, i <= c -> d @ c = dpc @ c)).
    - apply zlen_nonneg.
    - split; [done|]. split; [intros c id ? Hc; apply zlook_Some_lt in Hc; lia|done].
    - intros i d Hi (E1 & E2 & E3). destruct (zlook_lt dpc i ltac:(lia)) as [w Hw]. rewrite (rd_ok d i w) by (rewrite E3; [done|lia]). cbn [bind]. destruct (Z.leb_spec 0 w).
      + destruct (Hv w) as [|Hr]; [eapply zlook_elem; exact Hw|lia|]. rewrite (rd_ok _ _ _ (Ht2 w Hr)). cbn [bind]. assert (HP : P w = true) by (unfold P; apply bool_decide_eq_true; eapply zlook_elem; exact Hw). rewrite HP. rewrite wr_ok by lia. cbn. split; [by rewrite zlen_zset|]. split.
        * intros c id Hc Hcid. rewrite zlook_zset by lia. destruct (Z.eqb_spec c i) as [->|]; [rewrite Hcid in Hw; injection Hw as ->; by replace (0 <=? w) with true by lia|]. apply E2; [lia|done].
        * intros c Hc. rewrite zlook_zset by lia. replace (c =? i) with false by lia. apply E3. lia.
      + cbn. split; [done|]. split; [|intros; apply E3; lia]. intros c id Hc Hcid. destruct (decide (c = i)) as [->|]; [rewrite E3 by lia; rewrite Hcid in Hw; injection Hw as ->; rewrite Hcid; by replace (0 <=? w) with false by lia|]. apply E2; [lia|done].
    - intros d (E1 & E2 & E3). split; [done|]. intros c id Hc. apply zlook_Some_lt in Hc as ?. apply E2; [lia|done]. }
  apply wp_ok in W as (dpc' & -> & Hl' & Hd'). cbn [bind].
  match goal with |- context [forZ 0 sz ?f []] => assert (W : wp (forZ 0 sz f []) (Forall2 (fun id l => gd_loc g @ id = Some l) (kept P sz)) False) end.
  { apply (wp_forZ (fun i acc => Forall2 (fun id l => gd_loc g @ id = Some l) (kept P i) acc)); [lia|constructor| |done].
    intros i acc Hi HF. rewrite (rd_ok _ _ _ (Ht2 i Hi)). cbn [bind]. rewrite kept_succ by lia. destruct (P i) eqn:HP.
    - pose proof (rank_range P i). replace (rank P i =? -2) with false by lia. cbn [negb]. destruct (zlook_lt (gd_loc g) i ltac:(fold sz; lia)) as [l Hl]. rewrite (rd_ok _ _ _ Hl). cbn. apply Forall2_app; [done|]. by repeat constructor.
    - cbn. rewrite app_nil_r. done. }
  apply wp_ok in W as (loc' & -> & HF). cbn [bind]. exists dpc', loc'. split; [done|]. split; [done|].
  assert (Hlen : zlen loc' = rank P sz) by (unfold rank, zlen; rewrite (Forall2_length _ _ _ HF); reflexivity).
  assert (Hat : forall i, 0 <= i < sz -> P i = true -> loc' @ rank P i = gd_loc g @ i /\ rank P i < rank P sz).
  { intros i Hi HP. assert (Hk : kept P sz @ rank P i = Some i) by (apply kept_at; [done|split; [done|split; done]]). apply zlook_Some_lt in Hk as Hr. fold (rank P sz) in Hr. split; [|lia]. rewrite zlook_to_nat in Hk by lia. destruct (Forall2_lookup_l _ _ _ _ _ HF Hk) as (l & Hl1 & Hl2). rewrite Hl2. rewrite zlook_to_nat by lia. done. }
  assert (Hback : forall c id, dpc' @ c = Some id -> exists id0, dpc @ c = Some id0 /\ id = if 0 <=? id0 then rank P id0 else id0).
  { intros c id Hc. apply zlook_Some_lt in Hc as ?. destruct (zlook_lt dpc c ltac:(lia)) as [id0 Hi0]. exists id0. split; [done|]. rewrite (Hd' _ _ Hi0) in Hc. congruence. }
  split; [|split; [|split; [|split]]].
  - intros id Hid. apply elem_of_zlook in Hid as (c & Hc). destruct (Hback _ _ Hc) as (id0 & Hi0 & ->). assert (Hin : id0 ∈ dpc) by (eapply zlook_elem; exact Hi0). destruct (Hv id0 Hin) as [->|Hr]; [by left|right]. replace (0 <=? id0) with true by lia. rewrite Hlen. pose proof (rank_range P id0 ltac:(lia)). destruct (Hat id0 Hr); [unfold P; by apply bool_decide_eq_true|]. lia.
  - intros c. unfold loc_of. cbn. rewrite Hd. destruct (dpc @ c) as [id|] eqn:Hc.
    + rewrite (Hd' _ _ Hc). assert (Hin : id ∈ dpc) by (eapply zlook_elem; exact Hc). destruct (Hv id Hin) as [->|Hr]; [done|]. replace (0 <=? id) with true by lia. apply Hat; [done|]. unfold P. by apply bool_decide_eq_true.
    + destruct (dpc' @ c) as [id|] eqn:Hc'; [|done]. destruct (Hback _ _ Hc') as (id0 & Hi0 & _). congruence.
  - intros c. split; intros Hc.
    + destruct (Hback _ _ Hc) as (id0 & Hi0 & E). rewrite Hi0. f_equal. destruct (Z.leb_spec 0 id0); [pose proof (rank_range P id0); lia|done].
    + rewrite (Hd' _ _ Hc). done.
  - intros id Hid. rewrite Hlen in Hid. destruct (zlook_lt (kept P sz) id ltac:(unfold rank in Hid; lia)) as [i Hi]. apply kept_at in Hi as (H1 & H2 & H3); [|done]. assert (Hin : i ∈ dpc) by (unfold P in H2; by apply bool_decide_eq_true in H2). apply elem_of_zlook in Hin as (c & Hc). apply elem_of_zlook. exists c. rewrite (Hd' _ _ Hc). replace (0 <=? i) with true by lia. by rewrite H3.
  - exists (kept P sz). split; [by apply kept_ascending|]. split; [|done]. intros id. rewrite kept_elem by done. unfold P. rewrite bool_decide_eq_true. split; [tauto|]. intros [H1 H2]. destruct (Hv id H2); [lia|]. split; [lia|done].
Qed.

(** * Setting a localization *)
Lemma model_dim t k : GetCellModel t = Ok k -> 0 <= cm_dim k.
Proof.
  unfold GetCellModel. destruct (List.find _ models) as [c|] eqn:E; [|done]. intros [= ->]. apply List.find_some in E as [E _].
  assert (H : forallb (fun c => 0 <=? cm_dim c) models = true) by reflexivity. rewrite List.forallb_forall in H. specialize (H _ E). lia.
Qed.
Lemma model_case t : (exists k, GetCellModel t = Ok k) \/ GetCellModel t = Throw.
Proof. unfold GetCellModel. destruct (List.find _ models); eauto. Qed.
Lemma newLoc_case t ref gs w : newLoc t ref gs w = Ok (GL t ref gs w) /\ fits t ref gs w \/ newLoc t ref gs w = Throw /\ ~ fits t ref gs w.
Proof.
  unfold newLoc, checkLoc, fits. cbn [gl_type gl_ref gl_gauss gl_w]. destruct (model_case t) as [[k Ek]|Ek]; rewrite Ek; cbn [bind]; [|right; split; [done|intros (? & ? & _); done]].
  destruct (negb (cm_dyn k) && negb (zlen ref =? cm_nbpts k * cm_dim k)) eqn:E1; cbn [bind ifthrow].
  - right. split; [done|]. intros (k' & [= <-] & H & _). apply andb_true_iff in E1 as [E1 E2]. apply negb_true_iff in E1. specialize (H E1). lia.
  - destruct (Z.eqb_spec (zlen gs) (cm_dim k * zlen w)) as [E2|E2]; cbn [bind ifthrow negb].
    + left. split; [done|]. exists k. split; [done|]. split; [|done]. intros Hd. rewrite Hd in E1. cbn in E1. lia.
    + right. split; [done|]. intros (k' & [= <-] & _ & H). lia.
Qed.
Lemma typeOf_ok m cells i : stores m cells -> 0 <= i -> getTypeOfCell m i = match cells @ i with Some c => Ok c.1 | None => Throw end.
Proof.
  intros Hs Hi. destruct (stores_get _ _ Hs) as (conn & connI & E1 & E2 & Hsky & Hl). unfold getTypeOfCell, unchecked. rewrite E1, E2. destruct (Z.ltb_spec i (zlen connI - 1)) as [H|H].
  - destruct (zlook_lt cells i ltac:(lia)) as [c Hc]. rewrite Hc. destruct (cell_at cells conn connI i c Hsky Hc) as (a & Ea & _ & Ha & Hb & P & R & EP & HP). rewrite (rd_ok _ _ _ Ea). cbn [bind]. apply rd_ok. rewrite EP, zlook_app_r by lia. rewrite HP, Z.sub_diag. done.
  - rewrite (proj2 (zlook_None cells i)) by lia. done.
Qed.

Lemma build_ok m cells g : stores m cells -> good (zlen cells) g -> exists dpc, buildDiscrPerCellIfNecessary m g = Ok (GD (Some dpc) (gd_loc g)) /\
  good (zlen cells) (GD (Some dpc) (gd_loc g)) /\ (forall i, loc_of (GD (Some dpc) (gd_loc g)) i = loc_of g i) /\ (all_used g -> all_used (GD (Some dpc) (gd_loc g))).
Proof.
  intros Hs Hg. unfold buildDiscrPerCellIfNecessary. destruct g as [[dpc|] loc]; cbn [gd_dpc gd_loc] in *.
  - exists dpc. done.
  - rewrite (numCells_ok _ _ Hs). cbn [bind]. eexists. split; [reflexivity|]. pose proof (zlen_nonneg cells). split; [|split].
    + cbn. split; [rewrite zlen_replicate; lia|]. intros id Hid. apply elem_of_replicate in Hid as [-> _]. by left.
    + intros i. unfold loc_of. cbn. destruct (replicate (Z.to_nat (zlen cells)) (-1) @ i) as [id|] eqn:E; [|done]. apply elem_of_zlook_1 in E || apply zlook_elem in E. apply elem_of_replicate in E as [-> _]. done.
    + intros Hu id Hid. destruct (Hu id Hid) as (? & ? & _). done.
Qed.

(** The cells of [on] receive the new localization [elt]. *)
Lemma put_ok n dpc loc (on : Z -> Prop) dpc2 elt : good n (GD (Some dpc) loc) -> zlen dpc2 = n -> (forall i, 0 <= i < n -> on i /\ dpc2 @ i = Some (zlen loc) \/ ~ on i /\ dpc2 @ i = dpc @ i) ->
  exists g', zipGaussLocalizations (GD (Some dpc2) (loc ++ [elt])) = Ok g' /\ good n g' /\ all_used g' /\
    (forall i, 0 <= i < n -> on i -> loc_of g' i = Some elt) /\ (forall i, ~ on i -> loc_of g' i = loc_of (GD (Some dpc) loc) i).
Proof.
  intros [Hn Hv] Hl H. cbn in Hn, Hv. pose proof (zlen_nonneg loc) as Hnn.
  assert (Hl1 : zlen (loc ++ [elt]) = zlen loc + 1) by (rewrite zlen_app; done).
  destruct (zip_ok (GD (Some dpc2) (loc ++ [elt])) dpc2 eq_refl) as (dpc' & loc' & E & F1 & F2 & F3 & F4 & F5 & _).
  { cbn [gd_loc]. intros id Hid. apply elem_of_zlook in Hid as (c & Hc). apply zlook_Some_lt in Hc as Hr. destruct (H c ltac:(lia)) as [[_ Hx]|[_ Hx]]; rewrite Hx in Hc; [injection Hc as <-; lia|]. destruct (Hv id) as [|]; [eapply zlook_elem; exact Hc|by left|lia]. }
  exists (GD (Some dpc') loc'). split; [done|]. split; [cbn; split; [lia|done]|]. split; [intros id Hid; exists dpc'; split; [done|]; apply F5; done|]. split.
  - intros i Hi Hon. rewrite F3. unfold loc_of. cbn. destruct (H i Hi) as [[_ ->]|[? _]]; [|done]. rewrite zlook_app_r by lia. rewrite Z.sub_diag. done.
  - intros i Hon. rewrite F3. unfold loc_of. cbn. destruct (decide (0 <= i < n)) as [Hi|Hi].
    + destruct (H i Hi) as [[? _]|[_ ->]]; [done|]. destruct (dpc @ i) as [id|] eqn:Hc; [|done]. destruct (Hv id) as [->|]; [eapply zlook_elem; exact Hc|done|]. rewrite zlook_app_l by lia. done.
    + rewrite !(proj2 (zlook_None _ i)) by lia. done.
Qed.

(** What a call does. *)
Definition effect (m : umesh) (cells : list cell) (k : call) (g : gauss) : Prop :=
  good (zlen cells) (snd (run m k g)) /\ (all_used g -> all_used (snd (run m k g))) /\
  (forall i l, gives (um_dim m) cells k i l -> loc_of (snd (run m k g)) i = Some l) /\
  (forall i, (forall l, ~ gives (um_dim m) cells k i l) -> k <> Clear -> loc_of (snd (run m k g)) i = loc_of g i) /\
  (fst (run m k g) = Ok tt /\ correct (um_dim m) cells k /\ all_used (snd (run m k g)) \/ fst (run m k g) = Throw /\ ~ correct (um_dim m) cells k).

Lemma refused m cells k g g' : k <> Clear -> run m k g = (Throw, g') -> ~ correct (um_dim m) cells k -> good (zlen cells) g' -> (all_used g -> all_used g') -> (forall i, loc_of g' i = loc_of g i) -> effect m cells k g.
Proof.
  intros Hk E Hc Hg Hu Hl. unfold effect. rewrite E. cbn [fst snd]. split; [done|]. split; [done|]. split; [intros i l [? _]; done|]. split; [done|]. right. done.
Qed.

Lemma onType_ok m cells t ref gs w g : stores m cells -> good (zlen cells) g -> effect m cells (OnType t ref gs w) g.
Proof.
  intros Hs Hg. pose proof (build_ok m cells g Hs Hg) as (dpc & Eb & Hg1 & Hlo1 & Hu1). pose proof (zlen_nonneg cells) as Hnn.
  destruct (model_case t) as [[k Ek]|Ek].
  2:{ eapply (refused _ _ _ _ g); [done| | |done..]. - unfold run, setGaussLocalizationOnType. rewrite Ek. done. - intros [(k & ? & _) _]. congruence. }
  pose proof (model_dim _ _ Ek) as Hdim.
  destruct (decide (cm_dim k = um_dim m)) as [Ed|Ed].
  2:{ eapply (refused _ _ _ _ g); [done| | |done..].
      - unfold run, setGaussLocalizationOnType. rewrite Ek. cbn [bind]. unfold getMeshDimension. destruct (um_dim m <? -1); cbn [bind ifthrow]; [done|]. replace (cm_dim k =? um_dim m) with false by lia. done.
      - intros [_ (k' & ? & ?)]. congruence. }
  assert (Erun : run m (OnType t ref gs w) g = tryOr (newLoc t ref gs w) (GD (Some dpc) (gd_loc g)) (fun elt =>
    tryOr (let* nbCells := getNumberOfCells m in
      let* dpc := forZ 0 nbCells (fun i dpc => let* ti := getTypeOfCell m i in if ti =? t then wr dpc i (zlen (gd_loc g)) else Ok dpc) dpc in
      zipGaussLocalizations (GD (Some dpc) (gd_loc g ++ [elt]))) (GD (Some dpc) (gd_loc g)) (fun g => (Ok tt, g)))).
  { unfold run, setGaussLocalizationOnType. rewrite Ek. cbn [bind]. unfold getMeshDimension. replace (um_dim m <? -1) with false by lia. cbn [bind ifthrow]. replace (cm_dim k =? um_dim m) with true by lia. cbn [negb ifthrow]. rewrite Eb. reflexivity. }
  destruct (newLoc_case t ref gs w) as [[En Hf]|[En Hf]]; rewrite En in Erun; cbn [tryOr] in Erun.
  2:{ eapply (refused _ _ _ _ (GD (Some dpc) (gd_loc g))); [done|exact Erun| |done..]. intros [? _]. done. }
  rewrite (numCells_ok _ _ Hs) in Erun. cbn [bind] in Erun.
  match type of Erun with context [forZ ?a ?b ?f ?s0] => assert (W : wp (forZ a b f s0) (fun d => zlen d = zlen cells /\ forall i, 0 <= i < zlen cells -> (exists c : cell, cells @ i = Some c /\ c.1 = t) /\ d @ i = Some (zlen (gd_loc g)) \/ ~ (exists c : cell, cells @ i = Some c /\ c.1 = t) /\ d @ i = dpc @ i) False) end.
  { apply (wp_forZ (fun j d => zlen d = zlen cells /\ (forall i, 0 <= i < j -> (exists c : cell, cells @ i = Some c /\ c.1 = t) /\ d @ i = Some (zlen (gd_loc g)) \/ ~ (exists c : cell, cells @ i = Some c /\ c.1 = t) /\ d @ i = dpc @ i) /\ forall i, j <= i -> d @ i = dpc @ i)); [lia| | |].
    - split; [apply Hg1|]. split; [intros; lia|done].
    - intros j d Hj (E1 & E2 & E3). rewrite (typeOf_ok m cells j Hs ltac:(lia)). destruct (zlook_lt cells j ltac:(lia)) as [c Hc]. rewrite Hc. cbn [bind]. destruct (Z.eqb_spec c.1 t) as [Et|Et].
      + rewrite wr_ok by lia. cbn [wp]. split; [by rewrite zlen_zset|]. split.
        * intros i Hi. rewrite zlook_zset by lia. destruct (Z.eqb_spec i j) as [->|]; [left; eauto|]. apply E2. lia.
        * intros i Hi. rewrite zlook_zset by lia. replace (i =? j) with false by lia. apply E3. lia.
      + cbn [wp]. split; [done|]. split; [|intros; apply E3; lia]. intros i Hi. destruct (decide (i = j)) as [->|]; [|apply E2; lia]. right. split; [|apply E3; lia]. intros (c' & Hc' & ?). congruence.
    - intros d (E1 & E2 & _). done. }
  apply wp_ok in W as (dpc2 & W & Hl2 & Hd2). rewrite W in Erun. cbn [bind] in Erun.
  destruct (put_ok (zlen cells) dpc (gd_loc g) (fun i => exists c : cell, cells @ i = Some c /\ c.1 = t) dpc2 (GL t ref gs w) Hg1 Hl2 Hd2) as (g' & Ez & Hg' & Hu' & Hon & Hoff). rewrite Ez in Erun. cbn [tryOr] in Erun.
  assert (Hcor : correct (um_dim m) cells (OnType t ref gs w)) by (split; [done|eauto]).
  unfold effect. rewrite Erun. cbn [fst snd]. split; [done|]. split; [done|]. split; [|split].
  - intros i l (_ & c & Hc & Ht & ->). apply zlook_Some_lt in Hc as Hr. apply Hon; [lia|eauto].
  - intros i Hno _. rewrite <- Hlo1. apply Hoff. intros (c & Hc & Ht). apply (Hno (GL t ref gs w)). split; [done|]. exists c. done.
  - left. done.
Qed.

Lemma onCells_ok m cells ids ref gs w g : stores m cells -> good (zlen cells) g -> (forall i, i ∈ ids -> 0 <= i) -> effect m cells (OnCells ids ref gs w) g.
Proof.
  intros Hs Hg Hpos. pose proof (build_ok m cells g Hs Hg) as (dpc & Eb & Hg1 & Hlo1 & Hu1). pose proof (zlen_nonneg cells) as Hnn.
  assert (Hno : forall g', run m (OnCells ids ref gs w) g = (Throw, g') -> g' = GD (Some dpc) (gd_loc g) -> ~ correct (um_dim m) cells (OnCells ids ref gs w) -> effect m cells (OnCells ids ref gs w) g).
  { intros g' Er -> Hc. eapply refused; [done|exact Er|done..]. }
  destruct ids as [|i0 rest].
  { eapply Hno; [|reflexivity|intros [? _]; done]. unfold run, setGaussLocalizationOnCells. rewrite Eb. done. }
  set (ids := i0 :: rest) in *.
  assert (Erun : run m (OnCells ids ref gs w) g = tryOr (let* type := getTypeOfCell m i0 in newLoc type ref gs w) (GD (Some dpc) (gd_loc g)) (fun elt =>
    tryOr (let* _ := foldM (fun _ i => let* t := getTypeOfCell m i in throw_if negb (t =? gl_type elt) >>> Ok tt) rest tt in
        let* dpc := foldM (fun dpc i => wr dpc i (zlen (gd_loc g))) ids dpc in
        zipGaussLocalizations (GD (Some dpc) (gd_loc g ++ [elt]))) (GD (Some dpc) (gd_loc g)) (fun g => (Ok tt, g)))).
  { unfold run, setGaussLocalizationOnCells. rewrite Eb. reflexivity. }
  rewrite (typeOf_ok m cells i0 Hs) in Erun by (apply Hpos; left).
  destruct (cells @ i0) as [c0|] eqn:Hc0; cbn [bind] in Erun.
  2:{ eapply Hno; [exact Erun|reflexivity|]. intros (_ & t & _ & H). destruct (H i0) as (c & ? & _); [left|]. congruence. }
  destruct (newLoc_case c0.1 ref gs w) as [[En Hf]|[En Hf]]; rewrite En in Erun; cbn [tryOr gl_type] in Erun.
  2:{ eapply Hno; [exact Erun|reflexivity|]. intros (_ & t & Ht & H). destruct (H i0) as (c & ? & ?); [left|]. simplify_eq. done. }
  match type of Erun with context [foldM ?f rest tt] => assert (W : wp (foldM f rest tt) (fun _ => forall i, i ∈ rest -> exists c : cell, cells @ i = Some c /\ c.1 = c0.1) (~ forall i, i ∈ rest -> exists c : cell, cells @ i = Some c /\ c.1 = c0.1)) end.
  { apply (wp_foldM _ (fun pre _ => forall i, i ∈ pre -> exists c : cell, cells @ i = Some c /\ c.1 = c0.1)).
    - intros i Hi. by apply elem_of_nil in Hi.
    - intros pre x post [] El HI. assert (Hx : x ∈ rest) by (rewrite El; apply elem_of_app; right; left). rewrite (typeOf_ok m cells x Hs) by (apply Hpos; right; done). destruct (cells @ x) as [c|] eqn:Hc; cbn [bind].
      + destruct (Z.eqb_spec c.1 c0.1) as [E|E]; cbn [negb ifthrow wp].
        * intros i Hi. apply elem_of_app in Hi as [Hi|Hi]; [by apply HI|]. apply elem_of_list_singleton in Hi as ->. eauto.
        * intros H. destruct (H x Hx) as (c' & ? & ?). congruence.
      + cbn [wp]. intros H. destruct (H x Hx) as (c' & ? & ?). congruence.
    - intros [] H. exact H. }
  match type of Erun with context [foldM ?f rest tt] => destruct (foldM f rest tt) as [[]| | |] end; cbn [wp] in W; try done; cbn [bind] in Erun.
  2:{ eapply Hno; [exact Erun|reflexivity|]. intros (_ & t & Ht & H). apply W. intros i Hi. destruct (H i0) as (c & ? & ?); [left|]. destruct (H i) as (c' & ? & ?); [right; done|]. exists c'. split; [done|]. simplify_eq. congruence. }
  assert (Hall : forall i, i ∈ ids -> exists c : cell, cells @ i = Some c /\ c.1 = c0.1). { intros i Hi. apply elem_of_cons in Hi as [->|Hi]; [eauto|by apply W]. }
  match type of Erun with context [foldM ?f ids ?s0] => assert (W2 : wp (foldM f ids s0) (fun d => zlen d = zlen cells /\ forall i, 0 <= i < zlen cells -> i ∈ ids /\ d @ i = Some (zlen (gd_loc g)) \/ ~ i ∈ ids /\ d @ i = dpc @ i) False) end.
  { apply (wp_foldM _ (fun pre d => zlen d = zlen cells /\ forall i, 0 <= i < zlen cells -> i ∈ pre /\ d @ i = Some (zlen (gd_loc g)) \/ ~ i ∈ pre /\ d @ i = dpc @ i)).
    - split; [apply Hg1|]. intros i Hi. right. split; [apply not_elem_of_nil|done].
    - intros pre x post d El [E1 E2]. destruct (Hall x) as (c & Hc & _); [rewrite El; apply elem_of_app; right; left|]. apply zlook_Some_lt in Hc. rewrite wr_ok by lia. cbn [wp]. split; [by rewrite zlen_zset|]. intros i Hi. rewrite zlook_zset by lia. rewrite elem_of_app, elem_of_list_singleton. destruct (Z.eqb_spec i x) as [->|]; [left; split; [by right|done]|]. destruct (E2 i Hi) as [[? ?]|[? ?]]; [left; split; [by left|done]|right; split; [|done]; intros [?|?]; done].
    - intros d H. exact H. }
  apply wp_ok in W2 as (dpc2 & W2 & Hl2 & Hd2). rewrite W2 in Erun. cbn [bind] in Erun.
  destruct (put_ok (zlen cells) dpc (gd_loc g) (fun i => i ∈ ids) dpc2 (GL c0.1 ref gs w) Hg1 Hl2 Hd2) as (g' & Ez & Hg' & Hu' & Hon & Hoff). rewrite Ez in Erun. cbn [tryOr] in Erun.
  assert (Hcor : correct (um_dim m) cells (OnCells ids ref gs w)) by (split; [done|exists c0.1; done]).
  unfold effect. rewrite Erun. cbn [fst snd]. split; [done|]. split; [done|]. split; [|split].
  - intros i l (_ & c & Hc & Ht & ->). apply zlook_Some_lt in Hc as Hr. destruct (Hall i Ht) as (c' & Hc' & Et). rewrite Hc in Hc'. injection Hc' as <-. rewrite Et. apply Hon; [lia|done].
  - intros i Hno' _. rewrite <- Hlo1. apply Hoff. intros Hi. destruct (Hall i Hi) as (c & Hc & Et). apply (Hno' (GL c.1 ref gs w)). split; [done|]. exists c. done.
  - left. done.
Qed.

Lemma used_nil : all_used (GD None []).
Proof. intros id Hid. change (0 <= id < 0) in Hid. lia. Qed.
Lemma run_ok m cells k g : stores m cells -> good (zlen cells) g -> no_negative k -> effect m cells k g.
Proof.
  intros Hs Hg Hk. destruct k; [by apply onType_ok|by apply onCells_ok|]. unfold effect. cbn. split; [done|]. split; [intros _; exact used_nil|]. split; [intros i l (_ & c & _ & []) |]. split; [done|]. left. split; [done|]. split; [done|]. exact used_nil.
Qed.

(** * Any sequence of calls *)
Lemma runs_snoc m ks k g : runs m (ks ++ [k]) g = snd (run m k (runs m ks g)).
Proof. unfold runs. rewrite foldl_app. done. Qed.
Lemma runs_good m cells ks : stores m cells -> Forall no_negative ks -> good (zlen cells) (runs m ks (GD None [])) /\ all_used (runs m ks (GD None [])).
Proof.
  intros Hs. induction ks as [|k ks IH] using rev_ind; intros HF.
  - split; [done|exact used_nil].
  - apply Forall_app in HF as [HF Hk]. apply Forall_cons in Hk as [Hk _]. destruct (IH HF) as [H1 H2]. rewrite runs_snoc. destruct (run_ok m cells k _ Hs H1 Hk) as (A & B & _). split; [done|]. by apply B.
Qed.
Lemma history m cells ks i : stores m cells -> Forall no_negative ks ->
  match loc_of (runs m ks (GD None [])) i with
  | Some l => exists before k after, ks = before ++ k :: after /\ gives (um_dim m) cells k i l /\ forall k', k' ∈ after -> k' <> Clear /\ forall l', ~ gives (um_dim m) cells k' i l'
  | None => forall before k after l, ks = before ++ k :: after -> gives (um_dim m) cells k i l -> Clear ∈ after
  end.
Proof.
  intros Hs. induction ks as [|k ks IH] using rev_ind; intros HF.
  - cbn. intros [|? before] k after l E; discriminate E.
  - apply Forall_app in HF as [HF Hk]. apply Forall_cons in Hk as [Hk _]. specialize (IH HF). destruct (runs_good m cells ks Hs HF) as [H1 H2]. rewrite runs_snoc. destruct (run_ok m cells k _ Hs H1 Hk) as (_ & _ & Hgives & Hnot & _).
    assert (Hdec : (exists l, gives (um_dim m) cells k i l) \/ (forall l, ~ gives (um_dim m) cells k i l)).
    { destruct (run_ok m cells k _ Hs H1 Hk) as (_ & _ & _ & _ & [(_ & Hc & _)|(_ & Hc)]); [|right; intros l [? _]; done]. unfold gives. destruct (cells @ i) as [c|] eqn:Hi; [|right; intros l (_ & c & ? & _); done].
      destruct k as [t ref gs w|ids ref gs w|].
      - destruct (decide (c.1 = t)); [left; eexists; split; [done|]; exists c; split; [done|split; [done|reflexivity]]|right; intros l (_ & c' & [= <-] & ? & _); done].
      - destruct (decide (i ∈ ids)); [left; eexists; split; [done|]; exists c; split; [done|split; [done|reflexivity]]|right; intros l (_ & c' & [= <-] & ? & _); done].
      - right. intros l (_ & c' & _ & []). }
    destruct Hdec as [[l Hl]|Hl].
    + rewrite (Hgives _ _ Hl). exists ks, k, []. split; [done|]. split; [done|]. intros k' Hk'. by apply elem_of_nil in Hk'.
    + assert (HC : k = Clear \/ k <> Clear) by (destruct k; [right; done|right; done|by left]). destruct HC as [->|HC].
      * cbn. intros before k after l E Hg. destruct after as [|k2 after _] using rev_ind; [apply app_inj_tail in E as [_ <-]; by destruct (Hl l)|]. rewrite app_comm_cons, app_assoc in E. apply app_inj_tail in E as [_ <-]. apply elem_of_app. right. left.
      * rewrite (Hnot i Hl HC). destruct (loc_of (runs m ks (GD None [])) i) as [l|].
        -- destruct IH as (before & k0 & after & -> & Hg & Ha). exists before, k0, (after ++ [k]). split; [by rewrite <- app_assoc|]. split; [done|]. intros k' Hk'. apply elem_of_app in Hk' as [Hk'|Hk']; [by apply Ha|]. apply elem_of_list_singleton in Hk' as ->. done.
        -- intros before k0 after l E Hg. destruct after as [|k2 after _] using rev_ind; [apply app_inj_tail in E as [_ <-]; by destruct (Hl l)|]. rewrite app_comm_cons, app_assoc in E. apply app_inj_tail in E as [E <-]. apply elem_of_app. left. eapply IH; eauto.
Qed.
