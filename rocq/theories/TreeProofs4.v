From Coq Require Import QArith Qabs Lqa ZifyBool ZifyNat.
From Verif Require Import Base DataArray ArrLib IndexSpec FillLib TreeModel TreeSpec TreeProofs TreeProofs2 TreeProofs3.
Local Open Scope Z_scope.

(** * Arrays *)
Lemma wf_points {A} (d : da A) : da_wf d -> 1 <= da_nc d -> points (da_vals d) (da_nc d) (da_nt d).
Proof. intros W H1. destruct (da_wf_len d W) as (H2 & H3 & _). done. Qed.
Lemma at_drop v dim i k : 0 <= i -> 1 <= dim -> 0 <= k -> at_ (drop (Z.to_nat (i * dim)) v) dim 0 k = at_ v dim i k.
Proof. intros Hi Hd Hk. unfold at_. rewrite zlook_drop by lia. do 2 f_equal. nia. Qed.
Lemma zat_drop v dim i k : 0 <= i -> 1 <= dim -> 0 <= k -> zat (drop (Z.to_nat (i * dim)) v) dim 0 k = zat v dim i k.
Proof. intros Hi Hd Hk. unfold zat. rewrite zlook_drop by lia. do 2 f_equal. nia. Qed.
Lemma near_drop pts dim e eps v i : 0 <= i -> 1 <= dim -> near pts dim e eps (drop (Z.to_nat (i * dim)) v) 0 <-> near pts dim e eps v i.
Proof. intros Hi Hd. unfold near. split; intros H k Hk; specialize (H k Hk); rewrite at_drop in * by lia; done. Qed.
Lemma overlap_drop bbs dim e eps v i : 0 <= i -> 1 <= dim -> overlap bbs dim e eps (drop (Z.to_nat (i * (2 * dim))) v) 0 <-> overlap bbs dim e eps v i.
Proof.
  intros Hi Hd. assert (E : forall k, 0 <= k -> lower (drop (Z.to_nat (i * (2 * dim))) v) dim 0 k = lower v dim i k /\ upper (drop (Z.to_nat (i * (2 * dim))) v) dim 0 k = upper v dim i k).
  { intros k Hk. unfold lower, upper. rewrite !zlook_drop by lia. split; do 2 f_equal; nia. }
  unfold overlap. split; intros H k Hk; specialize (H k Hk); destruct (E k ltac:(lia)) as [E1 E2]; rewrite ?E1, ?E2 in *; done.
Qed.
Lemma drop_pt {A} (v : list A) dim n i : points v dim n -> 0 <= i < n -> is_point (drop (Z.to_nat (i * dim)) v) dim.
Proof. intros (Hd & Hn & Hl) Hi. unfold is_point, zlen in *. rewrite drop_length. nia. Qed.

(** The vector filled by a loop. *)
Lemma fill_loop {A} (f : Z -> res A) (P : Z -> A -> Prop) m : 0 <= m -> (forall i, 0 <= i < m -> exists x, f i = Ok x /\ P i x) ->
  exists r, forZ 0 m (fun i r => let* x := f i in Ok (r ++ [x])) [] = Ok r /\ zlen r = m /\ forall i, 0 <= i < m -> exists x, r @ i = Some x /\ P i x.
Proof.
  intros Hm Hf. assert (W : wp (forZ 0 m (fun i r => let* x := f i in Ok (r ++ [x])) []) (fun r => zlen r = m /\ forall i, 0 <= i < m -> exists x, r @ i = Some x /\ P i x) False).
  { apply (wp_forZ (fun j r => zlen r = j /\ forall i, 0 <= i < j -> exists x, r @ i = Some x /\ P i x)); [done|split; [done|lia]| |done].
    intros j r Hj [Hl Hr]. destruct (Hf j Hj) as (x & E & Hx). rewrite E. cbn [bind wp]. rewrite zlen_app, zlen_cons, zlen_nil. split; [lia|]. intros i Hi.
    destruct (decide (i = j)) as [->|]; [exists x; split; [rewrite <- Hl; apply zlook_snoc|done]|]. destruct (Hr i ltac:(lia)) as (y & Ey & Hy). exists y. split; [|done]. by rewrite zlook_app_l by lia. }
  destruct (forZ _ _ _ _) as [r| | |]; cbn in W; try done. exists r. done.
Qed.
Lemma interactions_ok this other dim eps : da_alloc this = true -> da_alloc other = true -> da_wf this -> da_wf other -> 1 <= dim <= 3 -> da_nc this = 2 * dim -> da_nc other = 2 * dim ->
  exists ret, computeNbOfInteractionsWith this other eps = Ok ret /\ zlen ret = da_nt this /\
    forall i, 0 <= i < da_nt this -> exists l, ret @ i = Some (zlen l) /\ NoDup l /\ forall e, e ∈ l <-> 0 <= e < da_nt other /\ overlap (da_vals other) dim e eps (da_vals this) i.
Proof.
  intros Ha Hb Wt Wo Hd Ht Ho. unfold computeNbOfInteractionsWith. rewrite Ha, Hb. cbn [negb orb ifthrow]. rewrite Ht, Ho, Z.eqb_refl. cbn [negb ifthrow].
  replace (2 * dim) with (dim * 2) by lia. rewrite Z.mod_mul, Z.div_mul by lia. cbn [Z.eqb negb ifthrow]. replace ((dim <? 1) || (3 <? dim)) with false by lia. cbn [ifthrow].
  pose proof (wf_points other Wo ltac:(lia)) as (_ & Hn & Hl). pose proof (wf_points this Wt ltac:(lia)) as HPt.
  assert (HB : boxes (da_vals other) dim (da_nt other)) by (split; [lia|]; split; [done|]; rewrite Hl, Ho; lia).
  destruct (BBTree_ok _ _ _ eps HB) as (t & Et & Pt & Gt). rewrite Et. cbn [bind].
  destruct (fill_loop (fun i => getNbOfIntersectingElems (da_vals other) dim eps t (drop (Z.to_nat (i * (2 * dim))) (da_vals this)))
    (fun i c => exists l, c = zlen l /\ NoDup l /\ forall e, e ∈ l <-> 0 <= e < da_nt other /\ overlap (da_vals other) dim e eps (da_vals this) i) (da_nt this)) as (r & Er & Lr & Hr).
  - destruct HPt as (_ & H & _). done.
  - intros i Hi. assert (Hb' : is_box (drop (Z.to_nat (i * (2 * dim))) (da_vals this)) dim). { pose proof (drop_pt _ _ _ i HPt Hi) as H. unfold is_point, is_box in *. rewrite Ht in H. done. }
    rewrite (getNb_ok _ _ _ _ _ _ HB Hb' Gt). eexists. split; [done|]. eexists. split; [done|].
    destruct (result_ok _ _ _ t (intersects_ok _ _ _ eps _ HB Hb') Pt) as [N1 N2]. split; [done|]. intros e. rewrite N2. rewrite overlap_drop by lia. done.
  - exists r. split; [replace (dim * 2) with (2 * dim) by lia; done|]. split; [done|]. intros i Hi. destruct (Hr i Hi) as (x & Ex & l & -> & H). exists l. done.
Qed.
Lemma interactions_throw this other eps : da_wf this -> da_wf other -> computeNbOfInteractionsWith this other eps = Throw <->
  ~ (da_alloc this = true /\ da_alloc other = true /\ da_nc this = da_nc other /\ (da_nc this = 2 \/ da_nc this = 4 \/ da_nc this = 6)).
Proof.
  intros Wt Wo. split.
  - intros E (Ha & Hb & Hc & Hd). destruct (interactions_ok this other (da_nc this / 2) eps) as (r & E' & _); try done; [| | |congruence];
      destruct Hd as [Hd|[Hd|Hd]]; rewrite <- ?Hc, Hd; cbn; lia.
  - intros H. unfold computeNbOfInteractionsWith. destruct (da_alloc this), (da_alloc other); cbn [negb orb ifthrow]; try done.
    destruct (Z.eqb_spec (da_nc this) (da_nc other)) as [E|E]; cbn [negb ifthrow]; [|done].
    destruct (Z.eqb_spec (da_nc this mod 2) 0) as [Em|Em]; cbn [negb ifthrow]; [|done].
    destruct ((da_nc this / 2 <? 1) || (3 <? da_nc this / 2)) eqn:Eb; cbn [ifthrow]; [done|]. exfalso. apply H. split; [done|]. split; [done|]. split; [done|].
    pose proof (Z.div_mod (da_nc this) 2 ltac:(lia)). lia.
Qed.

(** ** Tuples near tuples *)
Lemma sky_loop (f : Z -> res (list Z)) (P : Z -> list Z -> Prop) m : 0 <= m -> (forall i, 0 <= i < m -> exists x, f i = Ok x /\ P i x) ->
  exists gs c cI, forZ 0 m (fun i '(c, cI) => let* es := f i in let* b := rd cI (zlen cI - 1) in Ok (c ++ es, cI ++ [b + zlen es])) ([], [0]) = Ok (c, cI) /\
    skyline gs c cI /\ zlen gs = m /\ forall i g, gs @ i = Some g -> P i g.
Proof.
  intros Hm Hf. match goal with |- context [forZ 0 m ?b ?s] => assert (W : wp (forZ 0 m b s) (fun '(c, cI) => exists gs, c = concat gs /\ cI = psums (zlen <$> gs) /\ zlen gs = m /\ forall i g, gs @ i = Some g -> P i g) False) end.
  { apply (wp_forZ (fun j '(c, cI) => exists gs, c = concat gs /\ cI = psums (zlen <$> gs) /\ zlen gs = j /\ forall i g, gs @ i = Some g -> P i g)); [done| | |].
    - exists []. split; [done|]. split; [done|]. split; [done|]. intros i g H. rewrite zlook_nil in H. done.
    - intros j [c cI] Hj (gs & -> & -> & Hl & Hg). destruct (Hf j Hj) as (x & E & Hx). rewrite E. cbn [bind]. rewrite psums_len. replace (zlen (zlen <$> gs) + 1 - 1) with (zlen (zlen <$> gs)) by lia.
      rewrite (rd_ok _ _ _ (psums_end _)). cbn [bind wp]. exists (gs ++ [x]). split; [rewrite concat_app; cbn; by rewrite app_nil_r|]. split; [rewrite fmap_app; cbn; by rewrite psums_snoc_eq|].
      split; [rewrite zlen_app, zlen_cons, zlen_nil; lia|]. intros i g H. rewrite zlook_app in H. destruct (Z.ltb_spec i (zlen gs)); [by apply Hg|]. rewrite zlook_cons in H.
      destruct (Z.eqb_spec (i - zlen gs) 0); [|rewrite zlook_nil in H; done]. injection H as <-. replace i with j by lia. done.
    - intros [c cI] H. done. }
  destruct (forZ _ _ _ _) as [[c cI]| | |]; cbn in W; try done. destruct W as (gs & -> & -> & H). exists gs, (concat gs), (psums (zlen <$> gs)). split; [done|]. split; [split; [done|apply psums_ok]|done].
Qed.
Lemma nearTuples_ok d other eps : da_alloc d = true -> da_alloc other = true -> da_wf d -> da_wf other -> da_nc d = da_nc other -> 1 <= da_nc d <= 3 ->
  exists gs c cI, computeTupleIdsNearTuples d other eps = Ok (c, cI) /\ skyline gs c cI /\ zlen gs = da_nt other /\
    forall i g, gs @ i = Some g -> NoDup g /\ forall e, e ∈ g <-> 0 <= e < da_nt d /\ near (da_vals d) (da_nc d) e eps (da_vals other) i.
Proof.
  intros Ha Hb Wd Wo Hc H3. unfold computeTupleIdsNearTuples, checkAllocated. rewrite Ha, Hb. rewrite <- Hc, Z.eqb_refl. cbn [negb ifthrow].
  replace ((da_nc d <? 1) || (3 <? da_nc d)) with false by lia. cbn [ifthrow].
  pose proof (wf_points d Wd ltac:(lia)) as HP. pose proof (wf_points other Wo ltac:(lia)) as HO. rewrite <- Hc in HO.
  destruct (BBTreePts_ok _ _ _ eps HP) as (t & Et & Pt & Gt). rewrite Et. cbn [bind].
  destruct (sky_loop (fun i => getPointsAround (da_vals d) (da_nc d) eps t (drop (Z.to_nat (i * da_nc d)) (da_vals other)) [])
    (fun i g => 0 <= i -> NoDup g /\ forall e, e ∈ g <-> 0 <= e < da_nt d /\ near (da_vals d) (da_nc d) e eps (da_vals other) i) (da_nt other)) as (gs & c & cI & E & Hs & Hl & Hg).
  - apply HO.
  - intros i Hi. pose proof (drop_pt _ _ _ i HO Hi) as Hp. rewrite (getPts_ok _ _ _ _ _ _ HP Hp Gt). eexists. split; [done|]. intros _. cbn [app].
    destruct (result_ok _ _ _ t (close_ok _ _ _ eps _ HP Hp) Pt) as [N1 N2]. split; [done|]. intros e. rewrite N2, near_drop by lia. done.
  - exists gs, c, cI. split; [done|]. split; [done|]. split; [done|]. intros i g H. apply Hg; [done|]. pose proof (zlook_Some_lt _ _ _ H). lia.
Qed.
Lemma nearTuples_throw d other eps : da_wf d -> da_wf other -> computeTupleIdsNearTuples d other eps = Throw <->
  ~ (da_alloc d = true /\ da_alloc other = true /\ da_nc d = da_nc other /\ 1 <= da_nc d <= 3).
Proof.
  intros Wd Wo. split.
  - intros E (Ha & Hb & Hc & Hd). destruct (nearTuples_ok d other eps) as (? & ? & ? & E' & _); try done. congruence.
  - intros H. unfold computeTupleIdsNearTuples, checkAllocated. destruct (da_alloc d), (da_alloc other); try done.
    destruct (Z.eqb_spec (da_nc d) (da_nc other)) as [E|E]; cbn [negb ifthrow]; [|done].
    destruct ((da_nc d <? 1) || (3 <? da_nc d)) eqn:Eb; cbn [ifthrow]; [done|]. exfalso. apply H. repeat split; try done; lia.
Qed.
