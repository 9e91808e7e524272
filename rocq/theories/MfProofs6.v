From stdpp Require Import strings.
From Verif Require Import Base ArrLib SerModel MfModel MfSpec IndexProofs4 TreeProofs MfProofs MfProofs2 UmProofs10 FdProofs6.
From Coq Require Import QArith ZifyBool ZifyNat.
Local Open Scope Z_scope.
Local Open Scope list_scope.

Definition nm (l : list (option Z)) : list Z * list Z :=
  foldl (fun st a => let '(ms, refs) := st in let '(ms, r) := numberOne ms a in (ms, refs ++ [r])) ([], []) l.
Lemma nm_meshes {I} (fs : list (option (fld I))) : getDifferentMeshes fs = nm (meshOf <$> fs).
Proof. unfold getDifferentMeshes, nm. generalize (@nil Z, @nil Z). induction fs as [|f fs IH]; intros st; [done|]. cbn [foldl fmap list_fmap]. rewrite <- IH. done. Qed.
Lemma nm_ok l : Distinct l (nm l).1 /\ Forall2 (RefOf (nm l).1) l (nm l).2.
Proof.
  induction l as [|a l IH] using rev_ind; [split; [apply distinct_nil|constructor]|].
  unfold nm in *. rewrite foldl_app. cbn [foldl]. destruct (foldl _ _ l) as [ms refs]. cbn [fst snd] in IH. destruct IH as [HD HR].
  pose proof (numberOne_step _ _ _ a HD HR) as HS. destruct (numberOne ms a) as [ms' r]. by destruct HS as (? & ? & _).
Qed.
Lemma findPtr_at ds m k : NoDup ds -> ds @ k = Some m -> findPtr ds m = Some k.
Proof. intros HN Hk. pose proof (findPtr_spec ds m) as HF. destruct (findPtr ds m) as [j|]; [f_equal; by apply (zlook_inj ds _ _ m)|]. destruct HF. apply elem_of_zlook. by exists k. Qed.
Lemma pattern_prefix l l' a a' : SamePattern (l ++ [a]) (l' ++ [a']) -> SamePattern l l'.
Proof.
  intros (HL & HN & HS). rewrite !zlen_app in HL. change (zlen [a]) with 1 in HL. change (zlen [a']) with 1 in HL.
  assert (AP : forall i x, l @ i = Some x -> (l ++ [a]) @ i = Some x) by (intros i x Hx; pose proof (zlook_Some_lt _ _ _ Hx); by rewrite zlook_app_l by lia).
  assert (AP' : forall i x, l' @ i = Some x -> (l' ++ [a']) @ i = Some x) by (intros i x Hx; pose proof (zlook_Some_lt _ _ _ Hx); by rewrite zlook_app_l by lia).
  split; [lia|]. split.
  - intros i x x' Hx Hx'. apply (HN i); [by apply AP|by apply AP'].
  - intros i j x y x' y' H1 H2 H3 H4. apply (HS i j); [by apply AP|by apply AP|by apply AP'|by apply AP'].
Qed.
Lemma known_number l a r l' a' ds ds' refs i : Distinct l' ds' -> Forall2 (RefOf ds) l refs -> Forall2 (RefOf ds') l' refs -> NoDup ds ->
  l @ i = Some (Some a) -> l' @ i = Some (Some a') -> ds @ r = Some a -> findPtr ds' a' = Some r.
Proof.
  intros HD HR HR' HN Hi Hi' Hr. destruct (forall2_zlook _ _ _ _ _ HR Hi) as (x & Hx & Rx). destruct (forall2_zlook _ _ _ _ _ HR' Hi') as (y & Hy & Ry). assert (x = y) as -> by congruence.
  cbn [RefOf] in Rx, Ry. assert (r = y) as -> by (by apply (zlook_inj ds _ _ a)). apply findPtr_at; [apply HD|done].
Qed.
Lemma nm_pattern l : forall l', SamePattern l l' -> (nm l).2 = (nm l').2 /\ zlen (nm l).1 = zlen (nm l').1.
Proof.
  induction l as [|a l IH] using rev_ind; intros l' HP.
  - destruct HP as (HL & _). destruct l'; [done|]. rewrite zlen_cons in HL. change (zlen (A := option Z) []) with 0 in HL. pose proof (zlen_nonneg l'). lia.
  - destruct l' as [|a' l' _] using rev_ind. { destruct HP as (HL & _). rewrite zlen_app in HL. change (zlen (A := option Z) []) with 0 in HL. change (zlen [a]) with 1 in HL. pose proof (zlen_nonneg l). lia. }
    destruct (IH l' (pattern_prefix _ _ _ _ HP)) as [E1 E2]. pose proof (nm_ok l) as [D1 R1]. pose proof (nm_ok l') as [D2 R2].
    assert (E : forall l a, nm (l ++ [a]) = let '(ms, r) := numberOne (nm l).1 a in (ms, (nm l).2 ++ [r])). { intros k b. unfold nm. rewrite foldl_app. cbn [foldl]. destruct (foldl _ _ k). done. }
    rewrite !E. destruct (nm l) as [ds refs], (nm l') as [ds' refs']. cbn [fst snd] in *. subst refs'.
    destruct HP as (HL & HN & HS). rewrite !zlen_app in HL. change (zlen [a]) with 1 in HL. change (zlen [a']) with 1 in HL.
    assert (A1 : (l ++ [a]) @ zlen l = Some a) by (rewrite zlook_app_r, Z.sub_diag by lia; done).
    assert (A2 : (l' ++ [a']) @ zlen l = Some a') by (rewrite zlook_app_r by lia; replace (zlen l - zlen l') with 0 by lia; done).
    assert (HE : forall i x x', l @ i = Some x -> l' @ i = Some x' -> a = x <-> a' = x').
    { intros i x x' Hx Hx'. pose proof (zlook_Some_lt _ _ _ Hx). apply (HS (zlen l) i); try done; by rewrite zlook_app_l by lia. }
    pose proof (HN _ _ _ A1 A2) as H0. destruct a as [m|], a' as [m'|]; cbn [numberOne]; [|by pose proof (proj2 H0 eq_refl)|by pose proof (proj1 H0 eq_refl)|cbn [fst snd]; by rewrite E2].
    assert (IFF : forall k, findPtr ds m = Some k <-> findPtr ds' m' = Some k).
    { intros k. split; intros Hk.
      - pose proof (findPtr_spec ds m) as HF. rewrite Hk in HF. assert (HI : Some m ∈ l) by (apply D1, elem_of_zlook; by exists k). apply elem_of_zlook in HI as (i & Hi).
        destruct (zlook_lt l' i) as [x' Hx']; [pose proof (zlook_Some_lt _ _ _ Hi); lia|]. pose proof (proj1 (HE _ _ _ Hi Hx') eq_refl) as <-. by apply (known_number l m k l' m' ds ds' refs i); try done; apply D1.
      - pose proof (findPtr_spec ds' m') as HF. rewrite Hk in HF. assert (HI : Some m' ∈ l') by (apply D2, elem_of_zlook; by exists k). apply elem_of_zlook in HI as (i & Hi).
        destruct (zlook_lt l i) as [x Hx]; [pose proof (zlook_Some_lt _ _ _ Hi); lia|]. pose proof (proj2 (HE _ _ _ Hx Hi) eq_refl) as <-. by apply (known_number l' m' k l m ds' ds refs i); try done; apply D2. }
    destruct (findPtr ds m) as [k|] eqn:F1.
    + rewrite (proj1 (IFF k) eq_refl). by cbn [fst snd].
    + destruct (findPtr ds' m') as [k'|] eqn:F2; [by pose proof (proj2 (IFF k') eq_refl)|]. cbn [fst snd]. rewrite !zlen_app, E2. done.
Qed.
Lemma pattern_of_refs l l' : (nm l).2 = (nm l').2 -> SamePattern l l'.
Proof.
  intros E. pose proof (nm_ok l) as [D1 R1]. pose proof (nm_ok l') as [D2 R2]. destruct (nm l) as [ds refs], (nm l') as [ds' refs']. cbn [fst snd] in *. subst refs'.
  pose proof (Forall2_length _ _ _ R1) as L1. pose proof (Forall2_length _ _ _ R2) as L2.
  assert (NE : forall (l0 : list (option Z)) ds0 i x, Forall2 (RefOf ds0) l0 refs -> l0 @ i = Some x -> exists r, refs @ i = Some r /\ RefOf ds0 x r /\ (x = None <-> r = -1)).
  { intros l0 ds0 i x HF Hx. destruct (forall2_zlook _ _ _ _ _ HF Hx) as (r & Hr & HR). exists r. split; [done|]. split; [done|]. destruct x as [p|]; cbn [RefOf] in HR; [|done]. pose proof (zlook_Some_lt _ _ _ HR). split; [done|lia]. }
  assert (EQ : forall (ds0 : list Z) x y r q, NoDup ds0 -> RefOf ds0 x r -> RefOf ds0 y q -> (x = None <-> r = -1) -> (y = None <-> q = -1) -> x = y <-> r = q).
  { intros ds0 [x|] [y|] r q HN HX HY N1 N2; cbn [RefOf] in *; split; intros H.
    - injection H as ->. by apply (zlook_inj ds0 _ _ y).
    - subst q. congruence.
    - done.
    - subst. by pose proof (proj2 N1 eq_refl).
    - done.
    - subst. by pose proof (proj2 N2 eq_refl).
    - congruence.
    - done. }
  split; [unfold zlen; lia|]. split.
  - intros i x x' Hx Hx'. destruct (NE _ _ _ _ R1 Hx) as (r & Hr & _ & N1). destruct (NE _ _ _ _ R2 Hx') as (r' & Hr' & _ & N2). assert (r = r') as -> by congruence. by rewrite N1, N2.
  - intros i j x y x' y' H1 H2 H3 H4. destruct (NE _ _ _ _ R1 H1) as (r1 & Q1 & S1 & N1). destruct (NE _ _ _ _ R1 H2) as (r2 & Q2 & S2 & N2). destruct (NE _ _ _ _ R2 H3) as (r3 & Q3 & S3 & N3). destruct (NE _ _ _ _ R2 H4) as (r4 & Q4 & S4 & N4).
    assert (r1 = r3) as -> by congruence. assert (r2 = r4) as -> by congruence. rewrite (EQ ds x y r3 r4), (EQ ds' x' y' r3 r4); try done; [apply D2|apply D1].
Qed.
Lemma loop_equal {I} feq (a b : list (option (fld I))) : zlen a = zlen b ->
  exists r, forZ 0 (zlen a) (fun i ok =>
    if negb ok then Ok false else
    let* f1 := rd a i in
    let* f2 := rd b i in
    match f1, f2 with
    | Some x, Some y => Ok ((f_ptr x =? f_ptr y) || feq x y)
    | None, None => Ok true
    | _, _ => Ok false
    end) true = Ok r /\ (r = true <-> PairwiseEqual feq a b).
Proof.
  intros HL.
  match goal with |- exists r, forZ 0 (zlen a) ?body true = _ /\ _ =>
    assert (Hw : wp (forZ 0 (zlen a) body true) (fun r => r = true <-> PairwiseEqual feq a b) False) end.
  { apply (wp_forZ (fun n r => r = true <-> forall i x y, i < n -> a @ i = Some x -> b @ i = Some y ->
      match x, y with Some f, Some g => f_ptr f = f_ptr g \/ feq f g = true | None, None => True | _, _ => False end)).
    - apply zlen_nonneg.
    - split; [|done]. intros _ i x y Hi Hx. pose proof (zlook_Some_lt _ _ _ Hx). lia.
    - intros n r Hn HI. destruct r; cbn [negb].
      + destruct (zlook_lt a n) as [x Hx]; [lia|]. destruct (zlook_lt b n) as [y Hy]; [lia|]. rewrite (rd_ok _ _ _ Hx). cbn [bind]. rewrite (rd_ok _ _ _ Hy). cbn [bind].
        assert (ST : forall c : bool, (c = true <-> match x, y with Some f, Some g => f_ptr f = f_ptr g \/ feq f g = true | None, None => True | _, _ => False end) ->
          c = true <-> forall i x y, i < n + 1 -> a @ i = Some x -> b @ i = Some y ->
          match x, y with Some f, Some g => f_ptr f = f_ptr g \/ feq f g = true | None, None => True | _, _ => False end).
        { intros c Hc. rewrite Hc. split; [|intros H; apply (H n x y); [lia|done|done]]. intros H i u v Hi Hu Hv. destruct (decide (i = n)) as [->|]; [assert (u = x) as -> by congruence; by assert (v = y) as -> by congruence|].
          apply (proj1 HI eq_refl i); [lia|done|done]. }
        destruct x as [x|], y as [y|]; cbn [wp]; apply ST; [|done..]. rewrite orb_true_iff, Z.eqb_eq. done.
      + cbn [wp]. split; [done|]. intros H. apply HI. intros i x y Hi. apply H. lia.
    - intros r HI. rewrite HI. unfold PairwiseEqual. split; [|intros H i x y _; apply H]. intros H i x y Hx Hy. apply (H i); [apply (zlook_Some_lt _ _ _ Hx)|done|done]. }
  destruct (forZ _ _ _ _) as [r| | |]; cbn [wp] in Hw; try done. by exists r.
Qed.
Lemma is_equal_ok {I} feq (a b : list (option (fld I))) : exists r, isEqual feq a b = Ok r /\
  (r = true <-> zlen a = zlen b /\ PairwiseEqual feq a b /\ SamePattern (meshOf <$> a) (meshOf <$> b)).
Proof.
  unfold isEqual. destruct (Z.eqb_spec (zlen a) (zlen b)) as [HL|HL]; cbn [negb]; [|exists false; split; [done|]; split; [done|]; by intros (? & _)].
  destruct (loop_equal feq a b HL) as (r & -> & Hr). cbn [bind]. destruct r; cbn [negb]; [|exists false; split; [done|]; split; [done|]; intros (_ & H & _); by apply Hr].
  rewrite !nm_meshes. pose proof (pattern_of_refs (meshOf <$> a) (meshOf <$> b)) as P1. pose proof (nm_pattern (meshOf <$> a) (meshOf <$> b)) as P2.
  destruct (nm (meshOf <$> a)) as [m1 r1], (nm (meshOf <$> b)) as [m2 r2]. cbn [fst snd] in *.
  destruct (Z.eqb_spec (zlen m1) (zlen m2)) as [E1|E1]; cbn [negb]; [|exists false; split; [done|]; split; [done|]; intros (_ & _ & H); by destruct (P2 H)].
  destruct (bool_decide_reflect (r1 = r2)) as [E2|E2]; cbn [negb]; [|exists false; split; [done|]; split; [done|]; intros (_ & _ & H); by destruct (P2 H)].
  destruct (getDifferentArrays a) as [d1 r3]. rewrite Z.eqb_refl. cbn [negb]. rewrite bool_decide_true by done. cbn [negb]. exists true. split; [done|]. split; [|done]. intros _. split; [done|]. split; [by apply Hr|by apply P1].
Qed.
