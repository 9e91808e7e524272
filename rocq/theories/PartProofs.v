From Coq Require Import ZifyBool ZifyNat.
From Verif Require Import Base DataArray ArrLib StdModel StdProofs RenumSpec SearchSpec IndexSpec FillLib IndexProofs PartSpec PartModel.

(** * MakePartition *)
Definition sig_ok (n W : Z) (hit : Z -> Z -> Prop) (sigs : list (list Z)) : Prop :=
  zlen sigs = n /\ forall e, 0 <= e < n -> exists s, sigs @ e = Some s /\ zlen s = W /\
    forall w x, s @ w = Some x -> forall b, 0 <= b -> Z.testbit x b = true <-> b < 64 /\ hit e (64 * w + b).

Lemma sig_ext n W hit hit' sigs : (forall e k, hit e k <-> hit' e k) -> sig_ok n W hit sigs -> sig_ok n W hit' sigs.
Proof.
  intros He [Hl H]. split; [done|]. intros e Hr. destruct (H e Hr) as (s & Hs & Hw & Hb). exists s. split; [done|]. split; [done|].
  intros w x Hx b Hb0. rewrite (Hb w x Hx b Hb0), He. done.
Qed.

Lemma mark_wp n W i g hit sigs : 0 <= i -> i / 64 < W -> sig_ok n W hit sigs ->
  wp (markGroup n i g sigs) (fun r => (forall v, v ∈ g -> 0 <= v < n) /\ sig_ok n W (fun e k => hit e k \/ (k = i /\ e ∈ g)) r) (out_of_range n g).
Proof.
  intros Hi HW H0. unfold markGroup.
  apply (wp_foldM _ (fun pre r => (forall v, v ∈ pre -> 0 <= v < n) /\ sig_ok n W (fun e k => hit e k \/ (k = i /\ e ∈ pre)) r)).
  - split; [intros v Hv; apply elem_of_nil in Hv; done|]. eapply sig_ext; [|exact H0]. intros e k. rewrite elem_of_nil. tauto.
  - intros pre x post s -> [Hin [Hl Hs]]. destruct ((0 <=? x) && (x <? n)) eqn:E.
    2:{ simpl. exists x. split; [apply elem_of_app; right; left|]. lia. }
    destruct (Hs x) as (sg & Hsg & Hlen & Hbits); [lia|].
    unfold rd. rewrite Hsg. cbn [bind].
    assert (Hq : 0 <= i / 64) by (apply Z.div_pos; lia).
    destruct (sg @ (i / 64)) as [w|] eqn:Ew; [|apply zlook_None in Ew; lia]. cbn [bind].
    rewrite wr_ok by lia. cbn [bind]. rewrite wr_ok by lia. simpl. split.
    { intros v [Hv|Hv]%elem_of_app; [auto|]. apply elem_of_list_singleton in Hv. lia. }
    split; [rewrite zlen_zset; done|]. intros e He. rewrite zlook_zset by lia. destruct (decide (e = x)) as [->|Hne].
    + rewrite Z.eqb_refl. eexists. split; [done|]. split; [rewrite zlen_zset; done|].
      intros w' y Hy b Hb. assert (Hw' : 0 <= w' < W) by (apply zlook_Some_lt in Hy; rewrite zlen_zset in Hy; lia).
      rewrite zlook_zset in Hy by lia. destruct (w' =? i / 64) eqn:Ew'.
      * injection Hy as <-. assert (w' = i / 64) by lia. subst w'. rewrite Z.lor_spec, orb_true_iff, (Hbits _ _ Ew b Hb).
        rewrite Z.shiftl_spec by done. pose proof (Z.mod_pos_bound i 64 ltac:(lia)). pose proof (Z.div_mod i 64 ltac:(lia)).
        assert (Hb1 : Z.testbit 1 (b - i mod 64) = true <-> b = i mod 64).
        { destruct (decide (b - i mod 64 < 0)); [rewrite Z.testbit_neg_r by done; split; [done|lia]|].
          destruct (decide (b - i mod 64 = 0)) as [Hz|]; [rewrite Hz; split; [lia|done]|].
          replace (b - i mod 64) with (Z.succ (b - i mod 64 - 1)) by lia. rewrite <- Z.div2_bits by lia. change (Z.div2 1) with 0. rewrite Z.testbit_0_l. split; [done|lia]. }
        rewrite Hb1. split.
        { intros [[Hc1 Hc2]| ->]; [split; [done|]; rewrite elem_of_app; destruct Hc2 as [Hc2|[Hc2 Hc3]]; [left; done|right; split; [done|left; done]]|]. split; [lia|]. right. split; [lia|]. apply elem_of_app. right; left. }
        { intros [Hc1 [Hc2|[Hk _]]]; [left; split; [done|left; done]|]. right. lia. }
      * rewrite (Hbits _ _ Hy b Hb), elem_of_app. split; [intros [? [?|[? ?]]]; (split; [done|]); [left; done|right; split; [done|left; done]]|]. intros [Hb64 [?|[Hk _]]]; [split; [done|left; done]|]. exfalso.
        assert (i / 64 = w'); [|lia]. symmetry. apply (Z.div_unique i 64 w' b); lia.
    + replace (e =? x) with false by lia. destruct (Hs e He) as (s' & Hs' & Hl' & Hb'). exists s'. split; [done|]. split; [done|].
      intros w' y Hy b Hb. rewrite (Hb' _ _ Hy b Hb). rewrite elem_of_app, elem_of_list_singleton. tauto.
  - done.
Qed.

Lemma sig_init n W : 0 <= n -> 0 <= W -> sig_ok n W (fun _ _ => False) (replicate (Z.to_nat n) (replicate (Z.to_nat W) 0)).
Proof.
  intros Hn HW. split; [rewrite zlen_replicate; lia|]. intros e He. rewrite zlook_replicate by lia.
  eexists. split; [done|]. split; [rewrite zlen_replicate; lia|]. intros w x Hx b Hb. 
  assert (0 <= w < W). { apply zlook_Some_lt in Hx. rewrite zlen_replicate in Hx. lia. }
  rewrite zlook_replicate in Hx by lia. injection Hx as <-. rewrite Z.testbit_0_l. split; [done|tauto].
Qed.

Definition hits (gs : list (da Z)) (e k : Z) : Prop := exists g, gs @ k = Some g /\ e ∈ da_vals g.

Lemma sigs_wp n gs : 0 <= n ->
  wp (foldM (fun '(sigs, i) g => let* sigs := markGroup n i (da_vals g) sigs in Ok (sigs, i + 1)) gs
    (replicate (Z.to_nat n) (replicate (Z.to_nat ((zlen gs + 63) / 64)) 0), 0))
   (fun '(sigs, _) => (forall g v, g ∈ gs -> v ∈ da_vals g -> 0 <= v < n) /\ sig_ok n ((zlen gs + 63) / 64) (hits gs) sigs)
   (exists g, g ∈ gs /\ out_of_range n (da_vals g)).
Proof.
  intros Hn. pose proof (zlen_nonneg gs). set (W := (zlen gs + 63) / 64).
  apply (wp_foldM _ (fun pre '(sigs, i) => i = zlen pre /\ (forall g v, g ∈ pre -> v ∈ da_vals g -> 0 <= v < n) /\ sig_ok n W (hits pre) sigs)).
  - split; [done|]. split; [intros g v Hg; apply elem_of_nil in Hg; done|]. eapply sig_ext; [|apply sig_init; [done|apply Z.div_pos; lia]].
    intros e k. unfold hits. split; [done|]. intros (g & Hg & _). rewrite zlook_nil in Hg. done.
  - intros pre g post [sigs i] Hgs (-> & Hin & Hs). eapply wp_bind'.
    + eapply wp_mono; [apply (mark_wp n W (zlen pre) (da_vals g) (hits pre) sigs (zlen_nonneg pre)); [|exact Hs]| |].
      * unfold W. rewrite Hgs, zlen_app, zlen_cons. pose proof (zlen_nonneg post). pose proof (zlen_nonneg pre).
        pose proof (Z.div_mod (zlen pre) 64 ltac:(lia)). pose proof (Z.mod_pos_bound (zlen pre) 64 ltac:(lia)).
        apply Z.div_lt_upper_bound; [lia|]. pose proof (Z.div_mod (zlen pre + (1 + zlen post) + 63) 64 ltac:(lia)).
        pose proof (Z.mod_pos_bound (zlen pre + (1 + zlen post) + 63) 64 ltac:(lia)). lia.
      * intros r Hr. exact Hr.
      * intros Hx. exists g. split; [subst gs; apply elem_of_app; right; left|done].
    + intros r [Hg Hr]. simpl. rewrite zlen_app. split; [done|]. split.
      * intros g' v [Hg'|Hg']%elem_of_app; [eauto|]. apply elem_of_list_singleton in Hg'. subst g'. auto.
      * eapply sig_ext; [|exact Hr]. intros e k. unfold hits. split.
        { intros [(g' & Hg' & He)|[-> He]]; [exists g'; split; [|done]; rewrite zlook_app_l; [done|apply zlook_Some_lt in Hg'; lia]|].
          exists g. split; [|done]. rewrite zlook_snoc. done. }
        { intros (g' & Hg' & He). rewrite zlook_app in Hg'. destruct (k <? zlen pre) eqn:Ek; [left; eauto|].
          right. rewrite zlook_cons in Hg'. destruct (k - zlen pre =? 0) eqn:E0; [injection Hg' as <-; split; [lia|done]|]. rewrite zlook_nil in Hg'. done. }
  - intros [sigs i] (_ & H1 & H2). done.
Qed.

Lemma first_pos_snoc_old {A} (l : list A) x v i : first_pos l v i -> first_pos (l ++ [x]) v i.
Proof.
  intros [H1 H2]. pose proof (zlook_Some_lt _ _ _ H1). split; [rewrite zlook_app_l by lia; done|]. intros k Hk. rewrite zlook_app_l by lia. auto.
Qed.
Lemma first_pos_snoc_inv {A} (l : list A) x v i : first_pos (l ++ [x]) v i -> first_pos l v i \/ (i = zlen l /\ v = x /\ v ∉ l).
Proof.
  intros [H1 H2]. destruct (i <? zlen l) eqn:E.
  - left. rewrite zlook_app_l in H1 by lia. split; [done|]. intros k Hk. specialize (H2 k Hk). rewrite zlook_app_l in H2 by lia. done.
  - right. pose proof (zlook_Some_lt _ _ _ H1) as Hl. rewrite zlen_app in Hl. change (zlen [x]) with 1 in Hl.
    assert (i = zlen l) as -> by lia. rewrite zlook_snoc in H1. injection H1 as ->. split; [done|]. split; [done|].
    intros [k Hk]%elem_of_zlook. apply (H2 k); [apply zlook_Some_lt in Hk; lia|]. rewrite zlook_app_l; [done|apply zlook_Some_lt in Hk; lia].
Qed.
Lemma obf_nil : ordered_by_first [].
Proof. intros i j v w [H _]. rewrite zlook_nil in H. done. Qed.
Lemma obf_new l x : (forall v, v ∈ l -> v < x) -> ordered_by_first l -> ordered_by_first (l ++ [x]).
Proof.
  intros Hx H i j v w Hv Hw Hij. apply first_pos_snoc_inv in Hv as [Hv|(-> & -> & _)], Hw as [Hw|(-> & -> & _)]; [eauto| | |lia].
  - apply Hx. destruct Hv as [Hv _]. eapply zlook_elem; done.
  - destruct Hw as [Hw _]. apply zlook_Some_lt in Hw. lia.
Qed.
Lemma obf_old l x : x ∈ l -> ordered_by_first l -> ordered_by_first (l ++ [x]).
Proof.
  intros Hx H i j v w Hv Hw Hij. apply first_pos_snoc_inv in Hv as [Hv|(_ & -> & ?)], Hw as [Hw|(_ & -> & ?)]; [eauto|done..].
Qed.

Lemma sigFind_cons s s' id m : sigFind s ((s', id) :: m) = if decide (s = s') then Some id else sigFind s m.
Proof. done. Qed.

Definition numbering {K} (keys : list K) (fam : list Z) (k0 : Z) : Prop :=
  zlen fam = zlen keys /\
  (forall i j f f' s s', fam @ i = Some f -> fam @ j = Some f' -> keys @ i = Some s -> keys @ j = Some s' -> f = f' <-> s = s') /\
  (exists K, 0 <= K /\ forall f, f ∈ fam <-> k0 <= f < k0 + K) /\ ordered_by_first fam.

Lemma numbering_wp (sigs : list (list Z)) :
  wp (forZ 0 (zlen sigs) (fun e '(ret, m, next) =>
    let* s := rd sigs e in
    match sigFind s m with
    | None => let* ret := wrc ret e next in Ok (ret, (s, next) :: m, next + 1)
    | Some id => let* ret := wrc ret e id in Ok (ret, m, next)
    end) (replicate (length sigs) (Some 0), [], 1)) (fun '(ret, _, _) => exists fam, ret = Some <$> fam /\ numbering sigs fam 1) False.
Proof.
  apply (wp_forZ (fun e '(ret, m, next) => exists fam : list Z, 0 <= e <= zlen sigs /\ ret = (Some <$> fam) ++ replicate (length sigs - Z.to_nat e) (Some 0) /\
    zlen fam = e /\ 1 <= next /\
    (forall i f, fam @ i = Some f -> exists s, sigs @ i = Some s /\ sigFind s m = Some f) /\
    (forall s f, sigFind s m = Some f -> 1 <= f < next) /\
    (forall s s' f, sigFind s m = Some f -> sigFind s' m = Some f -> s = s') /\
    (forall f, f ∈ fam <-> 1 <= f < next) /\ ordered_by_first fam)).
  - apply zlen_nonneg.
  - exists []. pose proof (zlen_nonneg sigs). split; [lia|]. split; [simpl; f_equal; lia|]. split; [done|]. split; [lia|].
    split; [intros i f Hf; rewrite zlook_nil in Hf; done|]. split; [done|]. split; [done|]. split; [|apply obf_nil]. intros f. rewrite elem_of_nil. lia.
  - intros e [[ret m] next] He (fam & Hr & -> & Hl & Hn & Hf & Hm & Hinj & Hall & Hobf).
    destruct (sigs @ e) as [s|] eqn:Es; [|apply zlook_None in Es; lia]. rewrite (rd_ok _ _ _ Es). cbn [bind].
    assert (Hwr : forall x, wrc ((Some <$> fam) ++ replicate (length sigs - Z.to_nat e) (Some 0)) e x = Ok ((Some <$> (fam ++ [x])) ++ replicate (length sigs - Z.to_nat (e + 1)) (Some 0))).
    { intros x. unfold wrc. rewrite wr_ok by (rewrite zlen_app, zlen_fmap, zlen_replicate; unfold zlen in *; lia). f_equal.
      unfold zset. replace (length sigs - Z.to_nat e)%nat with (Datatypes.S (length sigs - Z.to_nat (e + 1))) by (unfold zlen in *; lia).
      cbn [replicate]. replace (Z.to_nat e) with (length (Some <$> fam) + 0)%nat at 1 by (rewrite fmap_length; unfold zlen in *; lia).
      rewrite insert_app_r. rewrite fmap_app, <- app_assoc. done. }
    destruct (sigFind s m) as [id|] eqn:Ef; rewrite Hwr; cbn [bind wp].
    + exists (fam ++ [id]). split; [lia|]. split; [done|]. split; [rewrite zlen_app; change (zlen [id]) with 1; lia|]. split; [lia|].
      assert (id ∈ fam) by (apply Hall; eauto).
      split; [|split; [done|split; [done|split; [|apply obf_old; done]]]].
      * intros i f Hi. rewrite zlook_app in Hi. destruct (i <? zlen fam) eqn:Ei; [eauto|]. rewrite zlook_cons, zlook_nil in Hi.
        destruct (i - zlen fam =? 0) eqn:E0; [|done]. injection Hi as <-. assert (i = e) as -> by lia. eauto.
      * intros f. rewrite elem_of_app, elem_of_list_singleton, Hall. split; [|tauto]. intros [?| ->]; [done|]. eauto.
    + assert (Hnew : forall f, f ∈ fam -> f < next) by (intros f Hff; apply Hall in Hff; lia).
      exists (fam ++ [next]). split; [lia|]. split; [done|]. split; [rewrite zlen_app; change (zlen [next]) with 1; lia|]. split; [lia|].
      assert (Hsf : forall s' f, sigFind s' ((s, next) :: m) = Some f -> (s' = s /\ f = next) \/ (s' <> s /\ sigFind s' m = Some f)).
      { intros s' f. rewrite sigFind_cons. destruct (decide (s' = s)); [intros [= <-]; auto|auto]. }
      split; [|split; [|split; [|split]]].
      * intros i f Hi. rewrite zlook_app in Hi. destruct (i <? zlen fam) eqn:Ei.
        { destruct (Hf i f Hi) as (s' & Hs' & Hsf'). exists s'. split; [done|]. rewrite sigFind_cons. destruct (decide (s' = s)); [subst; congruence|done]. }
        rewrite zlook_cons, zlook_nil in Hi. destruct (i - zlen fam =? 0) eqn:E0; [|done]. injection Hi as <-. assert (i = e) as -> by lia.
        exists s. split; [done|]. rewrite sigFind_cons. destruct (decide (s = s)); done.
      * intros s' f [[_ ->]|[_ H]]%Hsf; [lia|]. apply Hm in H. lia.
      * intros s1 s2 f [[-> ->]|[H1 H1']]%Hsf [[-> H2]|[H2 H2']]%Hsf; [done| | |eauto]; [apply Hm in H2'; lia|apply Hm in H1'; lia].
      * intros f. rewrite elem_of_app, elem_of_list_singleton, Hall. lia.
      * apply obf_new; done.
  - intros [[ret m] next] (fam & _ & -> & Hl & Hn & Hf & Hm & Hinj & Hall & Hobf). exists fam.
    split; [replace (length sigs - Z.to_nat (zlen sigs))%nat with 0%nat by (unfold zlen; lia); simpl; apply app_nil_r|].
    split; [done|]. split; [|split; [|done]].
    + intros i j f f' s s' H1 H2 H3 H4. destruct (Hf _ _ H1) as (t & Ht & Hs1). destruct (Hf _ _ H2) as (t' & Ht' & Hs2).
      assert (t = s) as -> by congruence. assert (t' = s') as -> by congruence. split; [intros ->; eauto|intros ->; congruence].
    + exists (next - 1). split; [lia|]. intros f. rewrite Hall. lia.
Qed.

Lemma sig_eq n W hit sigs i j s s' : 0 <= n -> sig_ok n W hit sigs -> sigs @ i = Some s -> sigs @ j = Some s' ->
  s = s' <-> forall k, 0 <= k < 64 * W -> hit i k <-> hit j k.
Proof.
  intros Hn [Hl H] Hi Hj. pose proof (zlook_Some_lt _ _ _ Hi). pose proof (zlook_Some_lt _ _ _ Hj).
  destruct (H i) as (t & Ht & Hlt & Hbt); [lia|]. destruct (H j) as (u & Hu & Hlu & Hbu); [lia|].
  assert (t = s) as -> by congruence. assert (u = s') as -> by congruence. split.
  - intros <- k Hk. pose proof (Z.div_mod k 64 ltac:(lia)). pose proof (Z.mod_pos_bound k 64 ltac:(lia)).
    assert (0 <= k / 64 < W) by (split; [apply Z.div_pos; lia|apply Z.div_lt_upper_bound; lia]).
    destruct (s @ (k / 64)) as [x|] eqn:Ex; [|apply zlook_None in Ex; lia].
    pose proof (Hbt _ _ Ex (k mod 64) ltac:(lia)) as P1. pose proof (Hbu _ _ Ex (k mod 64) ltac:(lia)) as P2.
    replace (64 * (k / 64) + k mod 64) with k in P1, P2 by lia. split; intros Hh.
    + apply P2, P1. split; [lia|done].
    + apply P1, P2. split; [lia|done].
  - intros Hk. apply zlook_ext_lt; [lia|]. intros w Hw.
    destruct (s @ w) as [x|] eqn:Ex; [|apply zlook_None in Ex; lia]. destruct (s' @ w) as [y|] eqn:Ey; [|apply zlook_None in Ey; lia].
    f_equal. apply Z.bits_inj'. intros b Hb. apply eq_true_iff_eq. rewrite (Hbt _ _ Ex b Hb), (Hbu _ _ Ey b Hb).
    split; intros [Hb1 Hb2]; (split; [done|]); apply (Hk (64 * w + b)); try done; lia.
Qed.

Lemma partition_wp groups n : 0 <= n <= 2147483647 ->
  let gs := omap id groups in
  wp (MakePartition groups n) (fun '(ret, fids) => (forall g v, g ∈ gs -> v ∈ da_vals g -> 0 <= v < n) /\ exists fam, ret = Some <$> fam /\ zlen fam = n /\
    (forall i j f f', fam @ i = Some f -> fam @ j = Some f' -> f = f' <-> forall g, g ∈ gs -> i ∈ da_vals g <-> j ∈ da_vals g) /\
    (exists K, 0 <= K /\ forall f, f ∈ fam <-> 1 <= f < 1 + K) /\ ordered_by_first fam /\
    zlen fids = zlen gs /\
    forall k g, gs @ k = Some g -> exists l, fids @ k = Some l /\ enumerates (fun f => exists e, e ∈ da_vals g /\ fam @ e = Some f) l /\
      forall e, e ∈ da_vals g <-> exists f, fam @ e = Some f /\ f ∈ l)
  (exists g, g ∈ gs /\ out_of_range n (da_vals g)).
Proof.
  intros Hn gs. unfold MakePartition. fold gs. unfold alloc. replace ((n <? 0) || (1 <? 0)) with false by lia. cbn [ubif bind].
  eapply wp_bind'; [apply sigs_wp; lia|]. intros [sigs c] [Hin Hsig]. cbn beta iota.
  replace (2147483647 <? n) with false by lia. cbn [ubif].
  pose proof (zlen_nonneg gs) as Hg0.
  destruct Hsig as [Hlen Hsig0]. pose proof (conj Hlen Hsig0) as Hsig.
  eapply wp_bind'.
  { rewrite <- Hlen at 1. unfold malloc. rewrite fmap_replicate. replace (Z.to_nat (1 * n)) with (length sigs) by (unfold zlen in Hlen; lia).
    eapply wp_mono; [apply numbering_wp|intros r Hr; exact Hr|done]. }
  intros [[ret m] next] (fam & -> & Hfl & Heq & Hc & Ho). cbn beta iota.
  assert (Hfams : forall e, 0 <= e < n -> exists f, fam @ e = Some f).
  { intros e He. destruct (fam @ e) eqn:E; [eauto|]. apply zlook_None in E. lia. }
  assert (Hsame : forall i j f f', fam @ i = Some f -> fam @ j = Some f' -> f = f' <-> forall g, g ∈ gs -> i ∈ da_vals g <-> j ∈ da_vals g).
  { intros i j f f' Hi Hj. pose proof (zlook_Some_lt _ _ _ Hi). pose proof (zlook_Some_lt _ _ _ Hj).
    destruct (Hsig0 i) as (s & Hs & _); [lia|]. destruct (Hsig0 j) as (s' & Hs' & _); [lia|].
    rewrite (Heq _ _ _ _ _ _ Hi Hj Hs Hs'). rewrite (sig_eq _ _ _ _ _ _ _ _ (proj1 Hn) Hsig Hs Hs'). split.
    - intros Hk g Hg. apply elem_of_zlook in Hg as [k Hg]. pose proof (zlook_Some_lt _ _ _ Hg).
      pose proof (Z.div_mod (zlen gs + 63) 64 ltac:(lia)). pose proof (Z.mod_pos_bound (zlen gs + 63) 64 ltac:(lia)).
      specialize (Hk k ltac:(lia)). split; intros Hx.
      + destruct (proj1 Hk) as (g' & Hg' & ?); [exists g; done|]. congruence.
      + destruct (proj2 Hk) as (g' & Hg' & ?); [exists g; done|]. congruence.
    - intros Hg k _. split; intros (g & Hk & Hx); exists g; (split; [done|]); apply (Hg g (zlook_elem _ _ _ Hk)); done. }
  eapply wp_bind'.
  { apply (wp_foldM _ (fun pre fids => zlen fids = zlen pre /\ forall k g, pre @ k = Some g -> exists l, fids @ k = Some l /\ enumerates (fun f => exists e, e ∈ da_vals g /\ fam @ e = Some f) l) gs []
      (fun fids => zlen fids = zlen gs /\ forall k g, gs @ k = Some g -> exists l, fids @ k = Some l /\ enumerates (fun f => exists e, e ∈ da_vals g /\ fam @ e = Some f) l)).
    - split; [done|]. intros k g Hk. rewrite zlook_nil in Hk. done.
    - intros pre g post fids Hgs [Hl Hf]. eapply wp_bind'.
      + apply (wp_foldM _ (fun p tmp => SS tmp /\ forall f, f ∈ tmp <-> exists e, e ∈ p /\ fam @ e = Some f) (da_vals g) []
          (fun tmp => enumerates (fun f => exists e, e ∈ da_vals g /\ fam @ e = Some f) tmp)).
        * split; [constructor|]. intros f. rewrite elem_of_nil. split; [done|]. intros (e & He & _). apply elem_of_nil in He. done.
        * intros p x q tmp Hpq [HS He].
          assert (Hx : 0 <= x < n) by (apply (Hin g); [rewrite Hgs; apply elem_of_app; right; left|rewrite Hpq; apply elem_of_app; right; left]).
          destruct (Hfams x Hx) as [f Hfx]. unfold rdc. rewrite zlook_fmap, Hfx. simpl. split; [apply SS_sins; done|].
          intros f'. rewrite elem_of_sins, He. split.
          { intros [->|(e & He' & ?)]; [exists x|exists e]; (split; [apply elem_of_app|done]); [right; left|left; done]. }
          { intros (e & [He'| ->%elem_of_list_singleton]%elem_of_app & Hfe); [right; eauto|left; congruence]. }
        * intros tmp [HS He]. split; [apply increasing_SS; done|done].
      + intros tmp Htmp. simpl. split; [rewrite !zlen_app; change (zlen [tmp]) with (zlen [g]); lia|].
        intros k g' Hk. rewrite zlook_app in Hk. rewrite zlook_app, Hl. destruct (k <? zlen pre); [auto|].
        rewrite zlook_cons, zlook_nil in Hk. rewrite zlook_cons. destruct (k - zlen pre =? 0); [|done]. injection Hk as <-. eauto.
    - done. }
  intros fids [Hfl2 Hfids]. simpl. split; [done|]. exists fam. split; [done|]. split; [lia|]. split; [done|]. split; [done|]. split; [done|]. split; [done|].
  intros k g Hk. destruct (Hfids k g Hk) as (l & Hl & [Hinc Hel]). exists l. split; [done|]. split; [split; done|].
  intros e. split.
  - intros He. destruct (Hfams e) as [f Hf]; [apply (Hin g); [eapply zlook_elem; eauto|done]|]. exists f. split; [done|]. apply Hel. eauto.
  - intros (f & Hf & Hfl'). apply Hel in Hfl' as (e' & He' & Hf').
    apply (proj1 (Hsame _ _ _ _ Hf Hf') eq_refl g (zlook_elem _ _ _ Hk)). done.
Qed.
