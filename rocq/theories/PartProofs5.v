From stdpp Require Import relations.
From Coq Require Import ZifyBool ZifyNat.
From Verif Require Import Base DataArray ArrLib StdModel StdProofs RenumSpec RenumProofs SearchSpec SearchProofs PermProofs IndexSpec FillLib IndexProofs2 IndexProofs3 IndexProofs4 IndexProofs5 PartSpec PartModel PartProofs PartProofs2 PartProofs3 PartProofs4.

(** * fromListOfPairsToIndexArray *)
Lemma paired_sym l a b : paired l a b -> paired l b a.
Proof. intros [i [H|H]]; exists i; [right|left]; done. Qed.
Lemma linked_refl l a : linked l a a.
Proof. apply rtc_refl. Qed.
Lemma linked_trans l a b c : linked l a b -> linked l b c -> linked l a c.
Proof. apply rtc_transitive. Qed.
Lemma linked_sym l a b : linked l a b -> linked l b a.
Proof. intros H. induction H as [|a b c Hab _ IH]; [apply rtc_refl|]. eapply rtc_r; [exact IH|apply paired_sym; done]. Qed.
Lemma linked_once l a b : paired l a b -> linked l a b.
Proof. apply rtc_once. Qed.
Lemma paired_in l a b : paired l a b -> a ∈ l /\ b ∈ l.
Proof. intros [i [[H1 H2]|[H1 H2]]]; simpl in *; eauto using zlook_elem. Qed.

Lemma merase_keys {V} k (m : list (Z * V)) : keys_sorted m -> keys_sorted (merase k m) /\ forall k', k' ∈ (merase k m).*1 -> k' ∈ m.*1.
Proof.
  unfold keys_sorted. induction m as [|[k0 v0] m IH]; intros HS; [done|]. simpl in HS. apply SS_cons_inv in HS as [HS Hlt].
  destruct (IH HS) as [IH1 IH2]. simpl. destruct (k =? k0); [split; [done|]; intros k' Hk'; right; done|]. split.
  - apply SS_cons; [done|]. intros y Hy. apply Hlt, IH2. done.
  - intros k' [->|Hk']%elem_of_cons; [left|right; auto].
Qed.
Lemma mget_merase {V} k (m : list (Z * V)) k' : keys_sorted m -> mget k' (merase k m) = if k' =? k then None else mget k' m.
Proof.
  unfold keys_sorted. induction m as [|[k0 v0] m IH]; intros HS; [simpl; destruct (k' =? k); done|]. simpl in HS. apply SS_cons_inv in HS as [HS Hlt].
  simpl. destruct (Z.eqb_spec k k0) as [Hk|Hk]; [subst k0|].
  - destruct (Z.eqb_spec k' k); [|done]. subst k'. apply mget_None. intros H. apply Hlt in H. lia.
  - simpl. rewrite IH by done. destruct (Z.eqb_spec k' k0); [subst k'|done]. replace (k0 =? k) with false by lia. done.
Qed.
Lemma mget_elem {V} k v (m : list (Z * V)) : mget k m = Some v -> (k, v) ∈ m.
Proof.
  induction m as [|[k0 v0] m IH]; simpl; [done|]. destruct (Z.eqb_spec k k0) as [->|]; [intros [= ->]; left|right; auto].
Qed.

Section Pairs.
Context (l : list Z).
(** Every set is a set of linked ids. *)
Definition groups_ok (ws : list (Z * list Z)) : Prop :=
  keys_sorted ws /\ forall k s, mget k ws = Some s -> SS s /\ k ∈ s /\ forall x, x ∈ s -> x ∈ l /\ linked l k x.
Definition covered (ws : list (Z * list Z)) (a b : Z) : Prop := exists k s, mget k ws = Some s /\ a ∈ s /\ b ∈ s.

Lemma sins_in x s y : y ∈ s -> y ∈ sins x s.
Proof. intros. apply elem_of_sins. right. done. Qed.

Lemma addPair_ok ws a b : paired l a b -> groups_ok ws ->
  groups_ok (addPair ws a b) /\ covered (addPair ws a b) a b /\ forall x y, covered ws x y -> covered (addPair ws a b) x y.
Proof.
  intros Hab [Hs Hg]. unfold addPair. set (mn := Z.min a b). set (mx := Z.max a b).
  assert (Hp : paired l mn mx). { unfold mn, mx. destruct (Z.min_spec a b) as [[? ->]|[? ->]]; [rewrite Z.max_r by lia|rewrite Z.max_l by lia]; [done|apply paired_sym; done]. }
  assert (Hin : mn ∈ l /\ mx ∈ l) by (apply paired_in; done). destruct Hin as [Hmn Hmx].
  assert (Hcov : forall ws, covered ws mn mx -> covered ws a b).
  { intros w (k & s & Hk & H1 & H2). exists k, s. split; [done|]. unfold mn, mx in *. destruct (Z.min_spec a b) as [[? E]|[? E]]; rewrite E in H1; [rewrite Z.max_r in H2 by lia|rewrite Z.max_l in H2 by lia]; auto. }
  destruct (mget mn ws) as [s|] eqn:E1; [|destruct (mget mx ws) as [s|] eqn:E2].
  - destruct (Hg _ _ E1) as (HS & Hk & Hx). split; [|split].
    + split; [apply mset_sorted; done|]. intros k t. rewrite mget_mset by done. destruct (Z.eqb_spec k mn) as [->|]; [|apply Hg]. intros [= <-].
      split; [apply SS_sins; done|]. split; [apply sins_in; done|]. intros x [->|H]%elem_of_sins; [split; [done|apply linked_once; done]|auto].
    + apply Hcov. exists mn, (sins mx s). rewrite mget_mset, Z.eqb_refl by done. split; [done|]. rewrite !elem_of_sins. auto.
    + intros x y (k & t & Hk' & H1 & H2). destruct (Z.eqb_spec k mn) as [->|Hne].
      * exists mn, (sins mx s). rewrite mget_mset, Z.eqb_refl by done. assert (t = s) as -> by congruence. split; [done|]. split; apply sins_in; done.
      * exists k, t. rewrite mget_mset by done. replace (k =? mn) with false by lia. auto.
  - destruct (Hg _ _ E2) as (HS & Hk & Hx). pose proof (merase_keys mx ws Hs) as [Hs' _].
    assert (Hne : mn <> mx) by congruence.
    split; [|split].
    + split; [apply mset_sorted; done|]. intros k t. rewrite mget_mset by done. destruct (Z.eqb_spec k mn) as [->|].
      * intros [= <-]. split; [apply SS_sins; done|]. split; [apply elem_of_sins; auto|]. intros x [->|H]%elem_of_sins; [split; [done|apply linked_refl]|].
        split; [apply Hx; done|]. eapply linked_trans; [apply linked_once; exact Hp|]. apply Hx. done.
      * rewrite mget_merase by done. destruct (k =? mx); [done|apply Hg].
    + apply Hcov. exists mn, (sins mn s). rewrite mget_mset, Z.eqb_refl by done. split; [done|]. rewrite !elem_of_sins. auto.
    + intros x y (k & t & Hk' & H1 & H2). destruct (Z.eqb_spec k mx) as [->|Hnx].
      * exists mn, (sins mn s). rewrite mget_mset, Z.eqb_refl by done. assert (t = s) as -> by congruence. split; [done|]. split; apply sins_in; done.
      * exists k, t. rewrite mget_mset by done. destruct (Z.eqb_spec k mn) as [->|]; [congruence|]. rewrite mget_merase by done. replace (k =? mx) with false by lia. auto.
  - split; [|split].
    + split; [apply mset_sorted; done|]. intros k t. rewrite mget_mset by done. destruct (Z.eqb_spec k mn) as [->|]; [|apply Hg]. intros [= <-].
      split; [apply SS_set_of|]. split; [apply elem_of_set_of; left|]. intros x. rewrite elem_of_set_of, !elem_of_cons, elem_of_nil. intros [->|[->|[]]].
      * split; [done|apply linked_refl].
      * split; [done|apply linked_once; done].
    + apply Hcov. exists mn, (set_of [mn; mx]). rewrite mget_mset, Z.eqb_refl by done. split; [done|]. rewrite !elem_of_set_of, !elem_of_cons. auto.
    + intros x y (k & t & Hk' & H1 & H2). exists k, t. rewrite mget_mset by done. replace (k =? mn) with false; [auto|]. symmetry. apply Z.eqb_neq. intros ->. congruence.
Qed.

Lemma firstGroup_spec s zm g : firstGroup s zm = Some g -> exists x, x ∈ s /\ mget x zm = Some g.
Proof.
  induction s as [|x s IH]; simpl; [done|]. destruct (mget x zm) eqn:E; [intros [= ->]; exists x; split; [left|done]|].
  intros (y & Hy & ?)%IH. exists y. split; [right; done|done].
Qed.
Lemma setAll_get s g zm x : keys_sorted zm -> keys_sorted (setAll s g zm) /\ mget x (setAll s g zm) = if decide (x ∈ s) then Some g else mget x zm.
Proof.
  unfold setAll. revert zm. induction s as [|y s IH]; intros zm Hs; [split; [done|]; rewrite decide_False by apply not_elem_of_nil; done|]. cbn [foldl].
  destruct (IH (mset y g zm) (mset_sorted _ _ _ Hs)) as [H1 H2]. split; [done|]. rewrite H2. destruct (decide (x ∈ s)).
  - rewrite decide_True by (right; done). done.
  - rewrite mget_mset by done. destruct (Z.eqb_spec x y) as [->|]; [rewrite decide_True by left; done|]. rewrite decide_False; [done|]. rewrite elem_of_cons. tauto.
Qed.

Lemma merge_wp ws : groups_ok ws ->
  wp (mergeGroups ws) (fun ws' => groups_ok ws' /\ forall a b, covered ws a b -> covered ws' a b) False.
Proof.
  intros [Hs0 Hg0]. unfold mergeGroups. eapply wp_bind'.
  - apply (wp_foldM _ (fun pre '(w, zm) => groups_ok w /\ (forall a b, covered ws a b -> covered w a b) /\ keys_sorted zm /\
      (forall k, k ∈ ws.*1 -> k ∉ pre -> exists s, mget k w = Some s) /\
      (forall x g, mget x zm = Some g -> g ∈ pre /\ exists t, mget g w = Some t /\ x ∈ t)) (ws.*1) (ws, [])
      (fun '(w, zm) => groups_ok w /\ forall a b, covered ws a b -> covered w a b)).
    + split; [done|]. split; [done|]. split; [constructor|]. split; [|done]. intros k Hk _. destruct (mget k ws) eqn:E; [eauto|]. apply mget_None in E. done.
    + intros pre k post [w zm] Hks ([Hs Hg] & Hcov & Hzs & Hrem & Hzm).
      assert (Hnd : NoDup (pre ++ k :: post)) by (rewrite <- Hks; apply SS_NoDup; exact Hs0). apply NoDup_app in Hnd as (_ & Hd & Hnd).
      assert (Hkpre : k ∉ pre) by (intros H; apply (Hd _ H); left).
      destruct (Hrem k) as (s & Es); [rewrite Hks; apply elem_of_app; right; left|done|]. rewrite Es.
      destruct (Hg _ _ Es) as (HS & Hk & Hx).
      destruct (firstGroup s zm) as [g|] eqn:Ef.
      * apply firstGroup_spec in Ef as (y & Hy & Hzy). destruct (Hzm _ _ Hzy) as (Hgp & t & Hgt & Hyt). rewrite Hgt. simpl.
        assert (Hgk : g <> k) by (intros ->; done). destruct (Hg _ _ Hgt) as (HSt & Hgin & Hxt).
        set (w1 := mset g (sins_all s t) w). assert (Hs1 : keys_sorted w1) by (apply mset_sorted; done).
        assert (Hw' : forall k', mget k' (merase k w1) = if k' =? k then None else if k' =? g then Some (sins_all s t) else mget k' w).
        { intros k'. rewrite mget_merase by done. unfold w1. rewrite mget_mset by done. done. }
        split; [|split; [|split; [|split]]].
        { split; [apply merase_keys; done|]. intros k' u. rewrite Hw'. destruct (k' =? k); [done|]. destruct (Z.eqb_spec k' g) as [->|]; [|apply Hg].
          intros [= <-]. split; [apply SS_sins_all; done|]. split; [apply elem_of_sins_all; auto|]. intros x [H|H]%elem_of_sins_all; [|auto].
          split; [apply Hx; done|]. eapply linked_trans; [apply Hxt; exact Hyt|]. eapply linked_trans; [apply linked_sym; apply Hx; exact Hy|apply Hx; done]. }
        { intros a b (k' & u & Hu & Ha & Hb)%Hcov. destruct (Z.eqb_spec k' k) as [->|Hnk].
          - exists g, (sins_all s t). rewrite Hw'. replace (g =? k) with false by lia. rewrite Z.eqb_refl. assert (u = s) as -> by congruence. split; [done|]. rewrite !elem_of_sins_all. auto.
          - destruct (Z.eqb_spec k' g) as [->|Hng].
            + exists g, (sins_all s t). rewrite Hw'. replace (g =? k) with false by lia. rewrite Z.eqb_refl. assert (u = t) as -> by congruence. split; [done|]. rewrite !elem_of_sins_all. auto.
            + exists k', u. rewrite Hw'. replace (k' =? k) with false by lia. replace (k' =? g) with false by lia. auto. }
        { apply (setAll_get s g zm 0 Hzs). }
        { intros k' Hk' Hnp. rewrite Hw'. rewrite elem_of_app, elem_of_list_singleton in Hnp. replace (k' =? k) with false by lia.
          destruct (k' =? g); [eauto|]. apply Hrem; tauto. }
        { intros x g' Hx'. rewrite (proj2 (setAll_get s g zm x Hzs)) in Hx'. destruct (decide (x ∈ s)) as [Hxs|].
          - injection Hx' as <-. split; [apply elem_of_app; left; done|]. exists (sins_all s t). rewrite Hw'. replace (g =? k) with false by lia. rewrite Z.eqb_refl. split; [done|]. apply elem_of_sins_all. auto.
          - destruct (Hzm _ _ Hx') as (Hp & u & Hu & Hxu). split; [apply elem_of_app; left; done|]. rewrite Hw'.
            replace (g' =? k) with false by (symmetry; apply Z.eqb_neq; intros ->; done). destruct (Z.eqb_spec g' g) as [->|]; [|eauto].
            exists (sins_all s t). split; [done|]. apply elem_of_sins_all. right. congruence. }
      * simpl. split; [done|]. split; [done|]. split; [apply (setAll_get s k zm 0 Hzs)|]. split.
        { intros k' Hk' Hnp. apply Hrem; [done|]. intros H. apply Hnp, elem_of_app. left. done. }
        { intros x g' Hx'. rewrite (proj2 (setAll_get s k zm x Hzs)) in Hx'. rewrite elem_of_app. destruct (decide (x ∈ s)) as [Hxs|].
          - injection Hx' as <-. split; [right; left|]. eauto.
          - destruct (Hzm _ _ Hx') as (Hp & u & Hu & Hxu). split; [left; done|]. eauto. }
    + intros [w zm] (H1 & H2 & _). done.
  - intros [w zm] H. simpl. done.
Qed.
End Pairs.

Lemma sky_tail2 (ws : list (Z * list Z)) :
  (let* idx := alloc Z (zlen ws + 1) 1 in
  let* idx := wrc idx 0 0 in
  let* (idx, p) := foldM (fun '(idx, p) '(_, s) => let* a := rdc idx p in let* idx := wrc idx (p + 1) (a + zlen s) in Ok (idx, p + 1)) ws (idx, 0) in
  let* n := rdc idx p in
  let* out := alloc Z n 1 in
  let* (out, _) := foldM (fun '(out, p) '(_, s) => let* out := copyc s 0 (zlen s) out p in Ok (out, p + zlen s)) ws (out, 0) in
  Ok (out, idx)) = Ok (Some <$> concat ws.*2, Some <$> psums (zlen <$> ws.*2)).
Proof.
  pose proof (zlen_nonneg ws). rewrite alloc1 by lia. cbn [bind]. rewrite iost_start by lia. cbn [bind].
  set (st := fun ps : list (list Z) => (iost (zlen ws) (zlen <$> ps), zlen ps)).
  assert (HF : Forall2 (fun (kv : Z * list Z) b => b = kv.2) ws ws.*2) by (clear; induction ws; constructor; done).
  assert (Hl2 : zlen ws.*2 = zlen ws) by apply zlen_fmap.
  change (iost (zlen ws) [], 0) with (st []). rewrite (foldM_blocks _ _ st ws ws.*2 HF).
  2: { intros pre [k x] b post E ->. unfold st. simpl in E. assert (zlen pre < zlen ws) by (rewrite <- Hl2, E, zlen_app, zlen_cons; pose proof (zlen_nonneg post); lia).
       pose proof (iost_rd (zlen ws) (zlen <$> pre)) as Hrd. rewrite zlen_fmap in Hrd. rewrite Hrd. cbn [bind].
       rewrite (iost_wr _ _ (zlen x)) by (rewrite ?zlen_fmap; lia). cbn [bind snd]. rewrite fmap_snoc, (zlen_app pre). done. }
  cbn [bind]. unfold st. pose proof (iost_rd (zlen ws) (zlen <$> ws.*2)) as Hrd. rewrite zlen_fmap in Hrd. rewrite Hrd. cbn [bind].
  rewrite <- zsum_pre. rewrite alloc1 by apply zlen_nonneg. cbn [bind]. rewrite ost_start. set (m := zlen (concat ws.*2)).
  pose (st2 := fun ps : list (list Z) => (ost m ps, zlen (concat ps))). change (ost m [], 0) with (st2 []).
  rewrite (foldM_blocks _ _ st2 ws ws.*2 HF).
  2: { intros pre [k x] b post E ->. unfold st2. simpl in E. pose proof (zlen_pre pre x post) as Hl. rewrite <- E in Hl. pose proof (zlen_nonneg (concat post)). pose proof (zlen_nonneg x).
       rewrite ost_copy by (unfold m; lia). cbn [bind snd]. rewrite sub_full, concat_snoc, zlen_app. done. }
  cbn [bind]. unfold st2. rewrite ost_end by done. rewrite <- Hl2, <- (zlen_fmap zlen ws.*2), iost_end. done.
Qed.

Lemma pairs_ok d : da_alloc d = true -> da_wf d -> da_nc d = 2 -> exists ps arr idx,
  fromListOfPairsToIndexArray d = Ok (Some <$> arr, Some <$> idx) /\ skyline ps arr idx /\
  (forall p, p ∈ ps -> p <> [] /\ increasing p /\ forall a b, a ∈ p -> b ∈ p -> a ∈ da_vals d /\ linked (da_vals d) a b) /\
  (forall a b, paired (da_vals d) a b -> exists p, p ∈ ps /\ a ∈ p /\ b ∈ p).
Proof.
  intros Ha Hwf Hc. pose proof (da_wf_len d Hwf) as (Hl & Hnt & _). rewrite Hc in Hl. set (l := da_vals d) in *.
  unfold fromListOfPairsToIndexArray, checkAllocated. rewrite Ha, Hc. cbn [negb ifthrow Z.eqb Pos.eqb]. fold l.
  match goal with |- context[forZ 0 (da_nt d) ?f []] => assert (Hw : wp (forZ 0 (da_nt d) f []) (fun ws => groups_ok l ws /\ forall i a b, 0 <= i < da_nt d -> pair_at l i (a, b) -> covered ws a b) False) end.
  { apply (wp_forZ (fun n ws => 0 <= n <= da_nt d /\ groups_ok l ws /\ forall i a b, 0 <= i < n -> pair_at l i (a, b) -> covered ws a b)).
    - done.
    - split; [lia|]. split; [|lia]. split; [constructor|done].
    - intros i ws Hi (_ & Hg & Hcov). destruct (l @ (2 * i)) as [a|] eqn:E1; [|apply zlook_None in E1; lia]. destruct (l @ (2 * i + 1)) as [b|] eqn:E2; [|apply zlook_None in E2; lia].
      rewrite (rd_ok _ _ _ E1). cbn [bind]. rewrite (rd_ok _ _ _ E2). simpl. destruct (addPair_ok l ws a b) as (H1 & H2 & H3); [exists i; left; done|done|].
      split; [lia|]. split; [done|]. intros j x y Hj Hp. destruct (decide (j = i)) as [->|]; [|apply H3; apply (Hcov j); [lia|done]].
      destruct Hp as [Hp1 Hp2]; simpl in *. assert (x = a) as -> by congruence. assert (y = b) as -> by congruence. done.
    - intros ws (_ & H1 & H2). done. }
  apply wp_ok in Hw as (ws & -> & Hg & Hcov). cbn [bind].
  pose proof (merge_wp l ws Hg) as Hm. apply wp_ok in Hm as (ws' & -> & [Hs' Hg'] & Hcov'). cbn [bind]. rewrite sky_tail2.
  exists (ws'.*2), (concat ws'.*2), (psums (zlen <$> ws'.*2)). split; [done|]. split; [apply skyline_psums|]. split.
  - intros p Hp. apply elem_of_list_fmap in Hp as ([k s] & -> & Hks). apply keys_sorted_get in Hks; [|done]. destruct (Hg' _ _ Hks) as (HS & Hk & Hx). simpl.
    split; [intros ->; apply elem_of_nil in Hk; done|]. split; [apply increasing_SS; done|]. intros a b Ha1 Hb1. split; [apply Hx; done|].
    eapply linked_trans; [apply linked_sym, Hx; done|apply Hx; done].
  - assert (Hone : forall i a b, pair_at l i (a, b) -> exists p, p ∈ ws'.*2 /\ a ∈ p /\ b ∈ p).
    { intros i a b Hp. assert (0 <= i < da_nt d). { destruct Hp as [H1 H2]. simpl in *. apply zlook_Some_lt in H1, H2. lia. }
      destruct (Hcov' a b (Hcov i a b H Hp)) as (k & s & Hk & H1 & H2). exists s. split; [|done]. apply elem_of_list_fmap. exists (k, s). split; [done|]. apply mget_elem. done. }
    intros a b [i [Hp|Hp]]; [eauto|]. destruct (Hone i b a Hp) as (p & ? & ? & ?). eauto.
Qed.
Lemma pairs_components l (ps : list (list Z)) : 
  (forall p, p ∈ ps -> forall a b, a ∈ p -> b ∈ p -> linked l a b) -> (forall a b, paired l a b -> exists p, p ∈ ps /\ a ∈ p /\ b ∈ p) ->
  (forall p q a, p ∈ ps -> q ∈ ps -> a ∈ p -> a ∈ q -> p = q) ->
  forall p a b, p ∈ ps -> a ∈ p -> b ∈ p <-> linked l a b.
Proof.
  intros H1 H2 H3 p a b Hp Ha. split; [eauto|]. intros Hl. induction Hl as [a|a c b Hac _ IH]; [done|].
  apply IH. destruct (H2 _ _ Hac) as (q & Hq & Haq & Hcq). rewrite (H3 p q a); done.
Qed.
Lemma pairs_throw d : da_wf d -> fromListOfPairsToIndexArray d = Throw <-> da_alloc d = false \/ da_nc d <> 2.
Proof.
  intros Hwf. split.
  - intros H. destruct (da_alloc d) eqn:Ha; [|left; done]. destruct (decide (da_nc d = 2)) as [Hc|]; [|right; done].
    destruct (pairs_ok d Ha Hwf Hc) as (? & ? & ? & H' & _). congruence.
  - unfold fromListOfPairsToIndexArray, checkAllocated. intros [->|H]; [done|]. destruct (da_alloc d); [|done]. cbn [negb ifthrow]. replace (da_nc d =? 2) with false by lia. done.
Qed.
