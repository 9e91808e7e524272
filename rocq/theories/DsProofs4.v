From Coq Require Import QArith ZifyBool ZifyNat.
From Verif Require Import CellModel CellSpec CellProofs4 Base DataArray ArrLib FillLib StdModel StdProofs IndexSpec IndexProofs2 IndexProofs3 IndexProofs4 SkyModel SkyProofs RenumModel RenumSpec RenumProofs RenumProofs2 PartSpec PartModel PartProofs4 CellTable UmModel UmSpec UmProofs UmProofs2 UmProofs3 UmProofs8 UmProofs9 UmProofs10 UcModel UcSpec UcProofs UcProofs2 UcProofs3 UcProofs4 UcProofs5 DsModel DsSpec DsProofs DsProofs2 DsProofs3.
Local Open Scope Z_scope.

Lemma sn_refl l : same_nodes l l.
Proof. done. Qed.
Lemma sn_sym l l' : same_nodes l l' -> same_nodes l' l.
Proof. intros [H1 H2]. split; [done|]. intros n. by rewrite H2. Qed.
Lemma sn_trans a b c : same_nodes a b -> same_nodes b c -> same_nodes a c.
Proof. intros [H1 H2] [H3 H4]. split; [congruence|]. intros n. by rewrite H2. Qed.
Lemma al3 c d : alike 3 c d <-> same_nodes c.2 d.2.
Proof. done. Qed.
Lemma F2_zlook {A B} (P : A -> B -> Prop) l l' : zlen l = zlen l' -> (forall i x y, l @ i = Some x -> l' @ i = Some y -> P x y) -> Forall2 P l l'.
Proof. intros Hl H. apply Forall2_same_length_lookup_2; [unfold zlen in Hl; lia|]. intros i x y Hx Hy. apply (H (Z.of_nat i)); rewrite zlook_to_nat by lia; by rewrite Nat2Z.id. Qed.
Lemma F2_at {A B} (P : A -> B -> Prop) l l' i x : Forall2 P l l' -> l @ i = Some x -> exists y, l' @ i = Some y /\ P x y.
Proof. intros HF Hx. pose proof (zlook_Some_lt _ _ _ Hx). rewrite zlook_to_nat in Hx by lia. destruct (Forall2_lookup_l _ _ _ _ _ HF Hx) as (y & Hy & HP). exists y. rewrite zlook_to_nat by lia. done. Qed.
Lemma F2_at_r {A B} (P : A -> B -> Prop) l l' i y : Forall2 P l l' -> l' @ i = Some y -> exists x, l @ i = Some x /\ P x y.
Proof. intros HF Hx. pose proof (zlook_Some_lt _ _ _ Hx). rewrite zlook_to_nat in Hx by lia. destruct (Forall2_lookup_r _ _ _ _ _ HF Hx) as (x & Hy & HP). exists x. rewrite zlook_to_nat by lia. done. Qed.
Lemma choose {A} (P : Z -> A -> Prop) n : 0 <= n -> (forall i, 0 <= i < n -> exists v, P i v) -> exists l, zlen l = n /\ forall i v, l @ i = Some v -> P i v.
Proof.
  intros Hn. rewrite <- (Z2Nat.id n Hn). generalize (Z.to_nat n) as k. clear n Hn. induction k as [|k IH]; intros H.
  - exists []. split; [done|]. intros i v Hv. by rewrite zlook_nil in Hv.
  - destruct IH as (l & Hl & HP); [intros i Hi; apply H; lia|]. destruct (H (Z.of_nat k)) as [v Hv]; [lia|]. exists (l ++ [v]). split; [rewrite zlen_app, Hl; change (zlen [v]) with 1; lia|].
    intros i w Hw. rewrite zlook_app in Hw. destruct (Z.ltb_spec i (zlen l)); [by apply HP|]. pose proof (zlook_Some_lt _ _ _ Hw) as L. change (zlen [v]) with 1 in L. assert (i = Z.of_nat k) as -> by lia. replace (Z.of_nat k - zlen l) with 0 in Hw by lia. injection Hw as <-. done.
Qed.
Lemma reshape_fmap {A} (fss : list (list A)) (h : Z -> Z) r : reshape fss (h <$> r) = (fun es : list Z => h <$> es) <$> reshape fss r.
Proof. revert r. induction fss as [|fs q IH]; intros r; [done|]. cbn [reshape]. rewrite fmap_cons, fmap_take, <- fmap_drop, IH. done. Qed.

Section Res.
Context (fss : list (list cell)) (new : list cell) (r : list Z) (K : Z).
Hypothesis HQ : quotient 3 0 (concat fss) r K.
Hypothesis HK : zlen new = K.
Hypothesis Hnew : forall t i, first_pos r t i -> new @ t = concat fss @ i.
Lemma rep_of i f d : concat fss @ i = Some f -> r @ i = Some d -> exists j f', first_pos r d j /\ concat fss @ j = Some f' /\ new @ d = Some f' /\ same_nodes f'.2 f.2.
Proof.
  intros Hf Hd. destruct HQ as (Hl & Hs & _). destruct (first_pos_exists r d) as [j Hj]; [by eapply zlook_elem|]. destruct (zlook_lt (concat fss) j) as [f' Hf']; [rewrite <- Hl; destruct Hj as [Hj _]; by eapply zlook_Some_lt|].
  exists j, f'. split; [done|]. split; [done|]. split; [by rewrite (Hnew d j Hj)|]. destruct (proj1 (Hs j i f' f d d Hf' Hf (proj1 Hj) Hd) eq_refl) as [->|[Ha _]]; [|done]. assert (f = f') as -> by congruence. apply sn_refl.
Qed.
Lemma descends_ok : descends fss new (reshape fss r).
Proof.
  pose proof HQ as (Hl & Hs & Hv & Ho). unfold descends. rewrite reshape_concat by done. split; [|split; [|split; [|done]]].
  - apply reshape_F2. apply F2_zlook; [done|]. intros i f d Hf Hd. destruct (rep_of i f d Hf Hd) as (j & f' & _ & _ & H1 & H2). eauto.
  - assert (G : forall t f, new @ t = Some f -> exists i, first_pos r t i /\ concat fss @ i = Some f). { intros t f Ht. destruct (first_pos_exists r t) as [i Hi]; [apply Hv; rewrite <- HK; by eapply zlook_Some_lt|]. exists i. split; [done|]. by rewrite <- (Hnew t i Hi). }
    intros t u f f' Ht Hu Hsn. destruct (G t f Ht) as (i & Hi & Hfi). destruct (G u f' Hu) as (j & Hj & Hfj). apply (Hs i j f f' t u Hfi Hfj (proj1 Hi) (proj1 Hj)). right. split; [done|]. exists i, f. split; [apply zlook_Some_lt in Hfi; lia|]. split; [done|]. apply sn_refl.
  - intros t f Ht. destruct (first_pos_exists r t) as [i Hi]; [apply Hv; rewrite <- HK; by eapply zlook_Some_lt|]. exists i. split; [done|]. by rewrite <- (Hnew t i Hi).
Qed.
End Res.

Lemma fast_ok g m cells fss nb : stores m cells -> has_nodes m nb -> Forall2 (sons g) cells fss -> -1 <= um_dim m -> 0 <= um_dim m - g_delta g <= 3 ->
  (forall f, f ∈ concat fss -> good_son (um_dim m - g_delta g) nb f) ->
  exists m' new dss desc descI revDesc revDescI, buildDescendingConnectivityGen g MEDCouplingFastNbrer m = Ok (m', desc, descI, revDesc, revDescI) /\
    stores m' new /\ typed m' new /\ um_dim m' = um_dim m - g_delta g /\ um_coords m' = um_coords m /\
    descends fss new dss /\ skyline dss desc descI /\ skyline (owners 0 dss <$> seqZ 0 (zlen new)) revDesc revDescI.
Proof.
  intros Hst Hn Hs H0 Hd Hg. destruct (gen_ok g MEDCouplingFastNbrer m cells fss nb Hst Hn Hs Hd H0 Hg) as (m' & new & r & K & vals & E & H1 & H2 & H3 & H4 & HQ & HK & HK0 & Hnew & Hv).
  { intros r K HQ. exists r. split; [done|]. intros i d v j Hi Hv _. assert (v = d) as -> by congruence. destruct (i =? j); done. }
  assert (Hvr : vals = r). { destruct Hv as (Hl & Hv). apply zlook_ext. intros i. destruct (vals @ i) as [v|] eqn:Ev; destruct (r @ i) as [d|] eqn:Ed; try done.
    - f_equal. destruct (first_pos_exists r d) as [j Hj]; [by eapply zlook_elem|]. specialize (Hv i d v j Ed Ev Hj). destruct (i =? j) eqn:Eij; [unfold MEDCouplingFastNbrer in Hv; congruence|].
      destruct HQ as (Hrl & _). destruct (zlook_lt (concat fss) i) as [c Hc]; [rewrite <- Hrl; by eapply zlook_Some_lt|]. destruct (zlook_lt (concat fss) j) as [c' Hc']; [rewrite <- Hrl; destruct Hj; by eapply zlook_Some_lt|]. destruct (Hg c) as ((k & Hk & _) & _); [by eapply zlook_elem|]. specialize (Hv c c' k Hc Hc' Hk). unfold MEDCouplingFastNbrer in Hv. congruence.
    - apply zlook_Some_lt in Ev. apply zlook_None in Ed. lia.
    - apply zlook_Some_lt in Ed. apply zlook_None in Ev. lia. }
  subst vals. eexists m', new, (reshape fss r), _, _, _, _. split; [exact E|]. split; [done|]. split; [done|]. split; [done|]. split; [done|].
  pose proof HQ as (Hl & _). split; [by apply (descends_ok fss new r K)|]. rewrite HK. split; [|apply skyline_psums]. rewrite <- (reshape_len fss r Hl). rewrite <- (reshape_concat fss r Hl) at 2. apply skyline_psums.
Qed.

Lemma oriented_ok g m cells fss nb : stores m cells -> has_nodes m nb -> Forall2 (sons g) cells fss -> -1 <= um_dim m -> 1 <= um_dim m - g_delta g <= 2 ->
  (forall f, f ∈ concat fss -> good_son (um_dim m - g_delta g) nb f) -> coherent (concat fss) -> (forall f k, f ∈ concat fss -> GetCellModel f.1 = Ok k -> cm_quad k = false) ->
  exists m' new ess desc descI revDesc revDescI, buildDescendingConnectivityGen g MEDCouplingOrientationSensitiveNbrer m = Ok (m', desc, descI, revDesc, revDescI) /\
    stores m' new /\ typed m' new /\ um_dim m' = um_dim m - g_delta g /\ um_coords m' = um_coords m /\
    descends fss new (ranks ess) /\ Forall2 (Forall2 (oriented (um_dim m - g_delta g) new)) fss ess /\ skyline ess desc descI /\ skyline (owners 0 (ranks ess) <$> seqZ 0 (zlen new)) revDesc revDescI.
Proof.
  intros Hst Hn Hs H0 Hd Hg Hco Hlin. set (dim := um_dim m - g_delta g) in *.
  (* the status of a son *)
  assert (Hstat : forall c c' k, c ∈ concat fss -> c' ∈ concat fss -> same_nodes c'.2 c.2 -> GetCellModel c.1 = Ok k -> exists b : bool, getOrientationStatus k c'.2 c.2 = Ok b /\ (b = true <-> same_way dim c' c)).
  { intros c c' k Hc Hc' Hsn Hk. destruct (Hg c Hc) as ((k' & Hk' & Hkd & _) & _). assert (k' = k) as -> by congruence. destruct (status_ok k c'.2 c.2 (Hlin c k Hc Hk) ltac:(lia) (proj1 Hsn)) as (S1 & S2 & S3). unfold same_way. rewrite Hkd in *. fold dim in S1, S2.
    destruct (Hco c' c Hc' Hc Hsn) as [Hr|Hr].
    - destruct (Z.eqb_spec dim 2) as [E2|E2]; [exists true; split; [by apply S1|done]|]. destruct (decide (c'.2 = c.2)) as [E|E]; [exists true; split; [by apply S1|done]|]. exists false. split; [apply S2; auto|]. done.
    - destruct (Z.eqb_spec dim 2) as [E2|E2].
      + destruct (getOrientationStatus k c'.2 c.2) as [b| | |] eqn:Es.
        * exists b. split; [done|]. rewrite <- S1. split; congruence.
        * exfalso. destruct (proj1 S3 eq_refl) as [_ Hn']. done.
        * exfalso. assert (~ rotation c'.2 c.2) as Hn' by (intros Hx; apply S1 in Hx; done). assert (UB = Ok false) by (apply S2; done). done.
        * exfalso. assert (~ rotation c'.2 c.2) as Hn' by (intros Hx; apply S1 in Hx; done). assert (@Fuel bool = Ok false) by (apply S2; done). done.
      + destruct (decide (c'.2 = c.2)) as [E|E]; [exists true; split; [by apply S1|done]|]. exists false. split; [apply S2; auto|]. done. }
  destruct (gen_ok g MEDCouplingOrientationSensitiveNbrer m cells fss nb Hst Hn Hs ltac:(lia) H0 Hg) as (m' & new & r & K & vals & E & H1 & H2 & H3 & H4 & HQ & HK & HK0 & Hnew & Hvl & Hv).
  { intros r K HQ. pose proof HQ as (Hl & Hsame & _).
    destruct (choose (fun i v => forall d j, r @ i = Some d -> first_pos r d j -> if i =? j then v = d + 1 else forall c c' k, concat fss @ i = Some c -> concat fss @ j = Some c' -> GetCellModel c.1 = Ok k -> MEDCouplingOrientationSensitiveNbrer d (Some (k, c'.2, c.2)) = Ok v) (zlen r)) as (vals & Hvl & Hv).
    - apply zlen_nonneg.
    - intros i Hi. destruct (zlook_lt r i Hi) as [d Hd']. destruct (first_pos_exists r d) as [j Hj]; [by eapply zlook_elem|]. destruct (Z.eqb_spec i j) as [->|Nij].
      + exists (d + 1). intros d' j' Hd'' Hj'. assert (d' = d) as -> by congruence. assert (j' = j) as ->. { destruct Hj as [A1 A2], Hj' as [B1 B2]. destruct (Z.lt_trichotomy j j') as [L|[L|L]]; [by apply B2 in L|done|by apply A2 in L]. } rewrite Z.eqb_refl. done.
      + destruct (zlook_lt (concat fss) i) as [c Hc]; [lia|]. destruct (zlook_lt (concat fss) j) as [c' Hc']; [rewrite <- Hl; destruct Hj; by eapply zlook_Some_lt|]. destruct (Hg c) as ((k & Hk & _) & _); [by eapply zlook_elem|].
        assert (Hsn : same_nodes c'.2 c.2). { destruct (proj1 (Hsame j i c' c d d Hc' Hc (proj1 Hj) Hd') eq_refl) as [?|[Ha _]]; [congruence|done]. }
        destruct (Hstat c c' k) as (b & Hb & _); [by eapply zlook_elem|by eapply zlook_elem|done|done|]. exists (if b then d + 1 else - (d + 1)). intros d' j' Hd'' Hj'. assert (d' = d) as -> by congruence. assert (j' = j) as ->. { destruct Hj as [A1 A2], Hj' as [B1 B2]. destruct (Z.lt_trichotomy j j') as [L|[L|L]]; [by apply B2 in L|done|by apply A2 in L]. }
        replace (i =? j) with false by lia. intros c2 c2' k2 Hc2 Hc2' Hk2. assert (c2 = c) as -> by congruence. assert (c2' = c') as -> by congruence. assert (k2 = k) as -> by congruence. unfold MEDCouplingOrientationSensitiveNbrer. rewrite Hb. done.
    - exists vals. split; [done|]. intros i d v j Hi' Hv' Hj'. specialize (Hv i v Hv' d j Hi' Hj'). destruct (i =? j); [subst v; done|done]. }
  pose proof HQ as (Hl & Hsame & Hrv & _).
  assert (Hval : forall i f v, concat fss @ i = Some f -> vals @ i = Some v -> r @ i = Some (Z.abs v - 1) /\ oriented dim new f v).
  { intros i f v Hf Hv'. destruct (zlook_lt r i) as [d Hd']; [rewrite Hl; by eapply zlook_Some_lt|]. assert (Hd0 : 0 <= d < K) by (apply Hrv; by eapply zlook_elem). destruct (rep_of fss new r K HQ Hnew i f d Hf Hd') as (j & f' & Hj & Hf' & Hnd & Hsn). specialize (Hv i d v j Hd' Hv' Hj). destruct (Z.eqb_spec i j) as [->|Nij].
    - injection Hv as <-. assert (f' = f) as -> by congruence. replace (Z.abs (d + 1) - 1) with d by lia. split; [done|]. split; [lia|]. replace (Z.abs (d + 1) - 1) with d by lia. intros f2 Hf2. assert (f2 = f) as -> by congruence. split; [|lia]. intros _. unfold same_way. destruct (dim =? 2); [|done]. exists 0%nat. split; [lia|]. cbn [drop take]. by rewrite app_nil_r.
    - destruct (Hg f) as ((k & Hk & _) & _); [by eapply zlook_elem|]. specialize (Hv f f' k Hf Hf' Hk). destruct (Hstat f f' k) as (b & Hb & Hbw); [by eapply zlook_elem|by eapply zlook_elem|done|done|]. unfold MEDCouplingOrientationSensitiveNbrer in Hv. rewrite Hb in Hv. cbn [bind] in Hv.
      assert (v = (if b then d + 1 else - (d + 1))) as -> by congruence. assert (Ea : Z.abs (if b then d + 1 else - (d + 1)) - 1 = d) by (destruct b; lia). rewrite Ea. split; [done|]. split; [destruct b; lia|]. rewrite Ea. intros f2 Hf2. assert (f2 = f') as -> by congruence. rewrite <- Hbw. destruct b; [|split; [lia|done]]. split; [done|lia]. }
  assert (Hvl' : zlen vals = zlen (concat fss)) by lia.
  assert (Hrk : (fun e => Z.abs e - 1) <$> vals = r).
  { apply zlook_ext. intros i. rewrite zlook_fmap. destruct (vals @ i) as [v|] eqn:Ev; cbn; [|symmetry; apply zlook_None in Ev; apply zlook_None; lia]. destruct (zlook_lt (concat fss) i) as [f Hf]; [rewrite <- Hvl'; by eapply zlook_Some_lt|]. destruct (Hval i f v Hf Ev) as [-> _]. done. }
  assert (Hrk2 : ranks (reshape fss vals) = reshape fss r) by (unfold ranks; rewrite <- reshape_fmap, Hrk; done).
  eexists m', new, (reshape fss vals), _, _, _, _. split; [exact E|]. split; [done|]. split; [done|]. split; [done|]. split; [done|]. rewrite Hrk2.
  split; [by apply (descends_ok fss new r K)|]. split; [|split].
  - apply reshape_F2, F2_zlook; [done|]. intros i f v Hf Hv'. by apply (Hval i f v).
  - rewrite <- (reshape_len fss vals Hvl'). rewrite <- (reshape_concat fss vals Hvl') at 2. apply skyline_psums.
  - rewrite HK. apply skyline_psums.
Qed.
