From stdpp Require Import strings.
From Verif Require Import Base ArrLib SerModel SerProofs MfModel MfSpec IndexProofs4 TreeProofs9.
From Coq Require Import QArith ZifyBool ZifyNat.
Local Open Scope Z_scope.
Local Open Scope list_scope.

Lemma findPtr_spec l p : match findPtr l p with Some k => l @ k = Some p | None => p ∉ l end.
Proof.
  induction l as [|x l IH]; cbn [findPtr]; [set_solver|]. destruct (Z.eqb_spec x p) as [->|N]; [by rewrite zlook_cons|].
  destruct (findPtr l p) as [k|]; cbn [fmap option_fmap option_map].
  - pose proof (zlook_Some_lt _ _ _ IH) as B. rewrite zlook_cons by lia. destruct (Z.eqb_spec (k + 1) 0) as [|]; [lia|]. by replace (k + 1 - 1) with k by lia.
  - rewrite not_elem_of_cons. by split; [congruence|].
Qed.
Lemma refof_app ds ds' p r : RefOf ds p r -> RefOf (ds ++ ds') p r.
Proof. destruct p as [x|]; cbn [RefOf]; [|done]. intros H. pose proof (zlook_Some_lt _ _ _ H). by rewrite zlook_app_l by lia. Qed.
Lemma numberOne_step l ds refs a : Distinct l ds -> Forall2 (RefOf ds) l refs ->
  let '(ds', r) := numberOne ds a in Distinct (l ++ [a]) ds' /\ Forall2 (RefOf ds') (l ++ [a]) (refs ++ [r]) /\ exists e, ds' = ds ++ e.
Proof.
  intros (HN & HI & HP) HR. destruct a as [m|]; cbn [numberOne].
  - pose proof (findPtr_spec ds m) as HF. destruct (findPtr ds m) as [k|].
    + split; [|split; [apply Forall2_app; [done|by constructor]|exists []; by rewrite app_nil_r]].
      split; [done|]. split.
      * intros p. rewrite elem_of_app, HI. split; [by left|]. intros [H|[= ->]%elem_of_list_singleton]; [done|]. apply HI. apply elem_of_zlook; by exists k.
      * intros n. destruct (decide (n <= length l)%nat) as [Hn|Hn].
        -- destruct (HP n) as [k0 Hk]. exists k0. intros p. rewrite Hk. by rewrite take_app_le by lia.
        -- exists (length ds). intros p. rewrite firstn_all. rewrite (take_ge (l ++ [Some m])) by (rewrite app_length; cbn; lia). rewrite HI, elem_of_app.
           split; [by left|]. intros [H|[= ->]%elem_of_list_singleton]; [done|]. apply HI. apply elem_of_zlook; by exists k.
    + split; [|split; [apply Forall2_app; [|constructor; [|done]]|by exists [m]]].
      * split; [|split].
        -- apply NoDup_app. split; [done|]. split; [|apply NoDup_singleton]. intros x Hx ->%elem_of_list_singleton. done.
        -- intros p. rewrite !elem_of_app, HI, !elem_of_list_singleton. split; (intros [H|H]; [by left|right; congruence]).
        -- intros n. destruct (decide (n <= length l)%nat) as [Hn|Hn].
           ++ destruct (HP n) as [k0 Hk]. exists (min k0 (length ds)). intros p. rewrite take_app_le by lia. rewrite (take_app_le l) by lia. rewrite <- Hk.
              destruct (decide (k0 <= length ds)%nat); [by rewrite Nat.min_l by lia|]. rewrite Nat.min_r by lia. by rewrite !take_ge by lia.
           ++ exists (length ds + 1)%nat. intros p. rewrite !take_ge by (rewrite app_length; cbn; lia).
              rewrite !elem_of_app, HI, !elem_of_list_singleton. split; (intros [H|H]; [by left|right; congruence]).
      * eapply Forall2_impl; [exact HR|]. intros p r. apply refof_app.
      * cbn [RefOf]. rewrite zlook_app_r by lia. by rewrite Z.sub_diag.
  - split; [|split; [apply Forall2_app; [done|by constructor]|exists []; by rewrite app_nil_r]].
    split; [done|]. split.
    + intros p. rewrite elem_of_app, HI. split; [by left|]. by intros [H|[=]%elem_of_list_singleton].
    + intros n. destruct (decide (n <= length l)%nat) as [Hn|Hn].
      * destruct (HP n) as [k0 Hk]. exists k0. intros p. rewrite Hk. by rewrite take_app_le by lia.
      * exists (length ds). intros p. rewrite firstn_all. rewrite (take_ge (l ++ [None])) by (rewrite app_length; cbn; lia). rewrite HI, elem_of_app.
        split; [by left|]. by intros [H|[=]%elem_of_list_singleton].
Qed.
Lemma distinct_nil : Distinct [] [].
Proof. split; [constructor|]. split; [intros p; set_solver|]. intros n. exists 0%nat. intros p. rewrite !take_nil. set_solver. Qed.
Lemma meshes_ok {I} (fs : list (option (fld I))) : let '(ms, refs) := getDifferentMeshes fs in
  Distinct (meshOf <$> fs) ms /\ Forall2 (RefOf ms) (meshOf <$> fs) refs.
Proof.
  induction fs as [|f fs IH] using rev_ind; [split; [apply distinct_nil|constructor]|].
  unfold getDifferentMeshes in *. rewrite foldl_app. cbn [foldl]. destruct (foldl _ _ fs) as [ms refs]. destruct IH as [HD HR]. fold (meshOf f).
  pose proof (numberOne_step _ _ _ (meshOf f) HD HR) as HS. destruct (numberOne ms (meshOf f)) as [ms' r]. rewrite fmap_app. by destruct HS as (? & ? & _).
Qed.
Lemma inner_ok l : forall L ds R r0, Distinct L ds -> Forall2 (RefOf ds) L R ->
  let '(ds', r) := foldl (fun st a => let '(ret, r) := st in let '(ret, k) := numberOne ret a in (ret, r ++ [k])) (ds, r0) l in
  exists r', r = r0 ++ r' /\ length r' = length l /\ Distinct (L ++ l) ds' /\ Forall2 (RefOf ds') (L ++ l) (R ++ r') /\ exists e, ds' = ds ++ e.
Proof.
  induction l as [|a l IH]; intros L ds R r0 HD HR; cbn [foldl].
  - exists []. rewrite !app_nil_r. split; [done|]. split; [done|]. split; [done|]. split; [done|]. exists []. by rewrite app_nil_r.
  - pose proof (numberOne_step _ _ _ a HD HR) as HS. destruct (numberOne ds a) as [ds1 k]. destruct HS as (HD1 & HR1 & e & ->).
    specialize (IH _ _ _ (r0 ++ [k]) HD1 HR1). destruct (foldl _ _ l) as [ds' r]. destruct IH as (r' & -> & HL & HD2 & HR2 & e2 & ->).
    exists (k :: r'). rewrite <- !app_assoc in *. cbn [app] in *. split; [done|]. split; [cbn; lia|]. split; [done|]. split; [done|]. by exists (e ++ e2).
Qed.
Lemma arrays_ok {I} (fs : list (option (fld I))) : let '(das, refs) := getDifferentArrays fs in
  Distinct (concat (arraysOf <$> fs)) das /\ Forall2 (Forall2 (RefOf das)) (arraysOf <$> fs) refs.
Proof.
  induction fs as [|f fs IH] using rev_ind; [split; [apply distinct_nil|constructor]|].
  unfold getDifferentArrays in *. rewrite foldl_app. cbn [foldl]. destruct (foldl _ _ fs) as [das refs]. destruct IH as [HD HR]. fold (arraysOf f).
  assert (HC : Forall2 (RefOf das) (concat (arraysOf <$> fs)) (concat refs)) by (clear HD; induction HR; cbn [concat]; [constructor|by apply Forall2_app]).
  pose proof (inner_ok (arraysOf f) _ _ _ [] HD HC) as HS. destruct (foldl _ (das, []) (arraysOf f)) as [das' r]. destruct HS as (r' & -> & HL & HD1 & HR1 & e & ->).
  rewrite fmap_app. cbn [fmap list_fmap]. rewrite concat_app. cbn [concat]. rewrite app_nil_r. split; [done|].
  apply Forall2_app.
  - eapply Forall2_impl; [exact HR|]. intros l1 l2 H. eapply Forall2_impl; [exact H|]. intros p q. apply refof_app.
  - constructor; [|done]. cbn [app]. apply Forall2_app_inv in HR1; [|by apply (Forall2_length _ _ _ HC)]. by destruct HR1.
Qed.
