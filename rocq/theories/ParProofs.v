(** Collective calls: what the processes receive; sorting of what is received. *)
From stdpp Require Import sorting.
From Coq Require Import ZifyBool ZifyNat.
From Verif Require Import Base DataArray ArrLib LayoutProofs3 PartDefProofs StdModel StdProofs SlicesModel RenumModel RenumSpec RenumProofs IndexModel IndexSpec IndexProofs6 FillLib LayoutModel SearchModel SearchSpec SearchProofs2 SetsModel SetsProofs PermProofs SkyModel SkySpec SkyProofs BlkModel DecModel DecProofs DecProofs2 ParModel.

Lemma sum_zsum l : sum l = zsum l.
Proof.
  unfold sum. enough (G : forall a, foldl Z.add a l = a + zsum l) by (rewrite G; lia). induction l as [|x l IH]; intros a; [cbn; lia|]. cbn [foldl]. rewrite IH. change (zsum (x :: l)) with (x + zsum l). lia.
Qed.
Lemma omap_vec {A} (l : list (list A)) : omap id ((fun x => Some (vec x)) <$> l) = vec <$> l.
Proof. induction l as [|x l IH]; [done|]. cbn. by rewrite <- IH. Qed.
Lemma aggr_ok {A} (l : list (list A)) : l <> [] -> aggregate l = Ok (concat l).
Proof.
  intros H. unfold aggregate. rewrite (aggregate_ok _ 1).
  - cbn [bind da_vals]. rewrite initialised_ok, omap_vec. f_equal. f_equal. induction l as [|x l IH]; [done|]. cbn. f_equal. destruct l; [done|]. by apply IH.
  - rewrite omap_vec. by destruct l.
  - intros d Hd. apply elem_of_list_fmap in Hd as (x & [= ->] & _). split; [apply LayoutProofs3.vec_wf|done].
Qed.
Lemma sel_ok {A} (l : list A) ids : (forall i, i ∈ ids -> 0 <= i < zlen l) -> exists n, select l ids = Ok n /\ Forall2 (fun i x => l @ i = Some x) ids n.
Proof.
  intros Hin. assert (forall v, v ∈ ids -> 0 <= v < da_nt (vec l)) as Hin' by (rewrite da_nt_vec; done). unfold select. rewrite selectSafe_same; [|done|apply LayoutProofs3.vec_wf|intros (v & H1 & H2); apply H2; auto].
  destruct (RenumProofs.select_ok (vec l) ids eq_refl (LayoutProofs3.vec_wf l) Hin') as (n & -> & Hn & Hij). cbn [bind da_nc da_vals vec] in *. rewrite initialised_ok. exists n. split; [done|].
  apply Forall2_same_length_lookup_2; [unfold zlen in *; lia|]. intros k i x Hi Hx. assert (ids @ Z.of_nat k = Some i) as Hi' by (rewrite zlook_nat; done).
  assert (n @ Z.of_nat k = Some x) as Hx' by (rewrite zlook_nat; done).
  specialize (Hij _ _ Hi' 0). pose proof (zlook_Some_lt _ _ _ Hi'). pose proof (Hin i ltac:(eapply zlook_elem; done)).
  rewrite !ij_flat in Hij by (cbn [da_nc vec]; lia). cbn [da_nc da_vals vec] in Hij. rewrite !Z.mul_1_r, !Z.add_0_r in Hij. congruence.
Qed.
Lemma collect_ok {B} n (f : Z -> res B) (Q : Z -> B -> Prop) : 0 <= n -> (forall p, 0 <= p < n -> exists r, f p = Ok r /\ Q p r) -> exists l, collect n f = Ok l /\ zlen l = n /\ forall p r, l @ p = Some r -> Q p r.
Proof.
  intros Hn Hf. assert (W := wp_collect n f Q Hn). destruct (collect n f) as [l| | |]; [exists l; split; [done|]|exfalso..]; apply W; intros p Hp; destruct (Hf p Hp) as (r & -> & Hr); done.
Qed.
Lemma concat_at {A} (ps : list (list A)) i p k : ps @ i = Some p -> 0 <= k < zlen p -> concat ps @ (zsum (take (Z.to_nat i) (zlen <$> ps)) + k) = p @ k.
Proof.
  intros Hp Hk. pose proof (zlook_Some_lt _ _ _ Hp) as Hi. rewrite zlook_to_nat in Hp by lia. rewrite <- (take_drop_middle ps (Z.to_nat i) p Hp) at 1. rewrite concat_app, <- fmap_take, <- zlen_concat.
  rewrite zlook_app_r by lia. replace (_ - _) with k by lia. cbn [concat]. by rewrite zlook_app_l by lia.
Qed.
Lemma concat_bound {A} (ps : list (list A)) i p : ps @ i = Some p -> zsum (take (Z.to_nat i) (zlen <$> ps)) + zlen p <= zlen (concat ps) /\ 0 <= zsum (take (Z.to_nat i) (zlen <$> ps)).
Proof.
  intros Hp. pose proof (zlook_Some_lt _ _ _ Hp) as Hi. rewrite zlook_to_nat in Hp by lia. rewrite <- (take_drop_middle ps (Z.to_nat i) p Hp) at 2. rewrite concat_app, <- fmap_take, <- zlen_concat. rewrite zlen_app. cbn [concat]. rewrite zlen_app. pose proof (zlen_nonneg (concat (drop (S (Z.to_nat i)) ps))). pose proof (zlen_nonneg (concat (take (Z.to_nat i) ps))). lia.
Qed.
Lemma sums_mono (l : list Z) i j x : (forall v, v ∈ l -> 0 <= v) -> 0 <= i < j -> l @ i = Some x -> zsum (take (Z.to_nat i) l) + x <= zsum (take (Z.to_nat j) l).
Proof.
  intros Hl [H0 H] Hx. rewrite <- (take_drop (Z.to_nat (i + 1)) (take (Z.to_nat j) l)). rewrite take_take. replace (Z.to_nat (i + 1) `min` Z.to_nat j)%nat with (Z.to_nat (i + 1)) by lia. rewrite zsum_app. replace (Z.to_nat (i + 1)) with (S (Z.to_nat i)) by lia. rewrite zlook_to_nat in Hx by lia. rewrite (take_S_r _ _ _ Hx), zsum_app. change (zsum [x]) with (x + 0).
  assert (0 <= zsum (drop (S (Z.to_nat i)) (take (Z.to_nat j) l))); [|lia]. apply zsum_nonneg. intros v Hv. apply Hl. eapply elem_of_subseteq; [|exact Hv]. intros w Hw. apply elem_of_list_lookup in Hw as (k & Hk). rewrite lookup_drop in Hk. apply lookup_take_Some in Hk as [Hk _]. by eapply elem_of_list_lookup_2.
Qed.
Section All.
Context {A : Type} (sent : list (list (list A))) (HN : 0 < zlen sent) (Hsq : forall p s, sent @ p = Some s -> zlen s = zlen sent).
Let N := zlen sent.
Definition sentBy (p : Z) (r : list Z * list Z * list (option A)) : Prop :=
  exists s, sent @ p = Some s /\ r.1.1 = zlen <$> s /\ zlen r.1.2 = N /\ (forall q, 0 <= q < N -> r.1.2 @ q = Some (zsum (take (Z.to_nat q) (zlen <$> s)))) /\ r.2 = Some <$> concat s.
Definition column (w : Z) : list (list A) := (fun s => default [] (s @ w)) <$> sent.
Lemma column_at w p s x : sent @ p = Some s -> s @ w = Some x -> column w @ p = Some x.
Proof. intros Hs Hx. unfold column. rewrite zlook_fmap, Hs. cbn. by rewrite Hx. Qed.
Lemma toAll_ok : allToAllArrays sent = Ok (column <$> seqZ 0 N).
Proof using All.
  unfold allToAllArrays. fold N.
  destruct (collect_ok N (fun p => let* s := rd sent p in throw_if negb (zlen s =? N) >>> let* displs := starts N (zlen <$> s) in let* acc := aggregate s in Ok (zlen <$> s, displs, Some <$> acc)) sentBy) as (senders & E & L & Hse).
  { lia. }
  { intros p Hp. destruct (zlook_lt sent p Hp) as [s Hs]. rewrite (rd_ok _ _ _ Hs). cbn [bind]. pose proof (Hsq p s Hs) as Hl. fold N in Hl. replace (zlen s =? N) with true by lia. cbn [negb ifthrow].
    destruct (starts_ok N (zlen <$> s)) as (d & Ed & D1 & D2); [lia|rewrite zlen_fmap; lia|]. rewrite Ed. cbn [bind]. rewrite aggr_ok by (intros ->; unfold zlen in *; cbn in *; lia). cbn [bind]. eexists. split; [done|]. exists s. done. }
  cbv zeta. rewrite E. cbn [bind].
  match goal with |- collect N ?f = _ => destruct (collect_ok N f (fun w r => r = column w)) as (out & Eo & Lo & Ho) end; [lia| |].
  - intros w Hw. set (C := column w). assert (HC : zlen C = N) by (unfold C, column; by rewrite zlen_fmap).
    assert (HCat : forall p, 0 <= p < N -> exists s x, sent @ p = Some s /\ s @ w = Some x /\ C @ p = Some x).
    { intros p Hp. destruct (zlook_lt sent p Hp) as [s Hs]. destruct (zlook_lt s w) as [x Hx]; [rewrite (Hsq p s Hs); exact Hw|]. exists s, x. split; [done|]. split; [done|]. by eapply column_at. }
    destruct (collect_ok N (fun p => let* s := rd senders p in rd s.1.1 w) (fun p c => exists x, C @ p = Some x /\ c = zlen x)) as (counts & Ec & Lc & Hc); [lia| |].
    { intros p Hp. destruct (zlook_lt senders p) as [r Hr]; [lia|]. rewrite (rd_ok _ _ _ Hr). cbn [bind]. destruct (Hse p r Hr) as (s & Hs & E1 & _). destruct (HCat p Hp) as (s' & x & Hs' & Hx & HCx). rewrite Hs in Hs'. injection Hs' as <-.
      exists (zlen x). split; [|eauto]. rewrite E1. apply rd_ok. rewrite zlook_fmap, Hx. done. }
    rewrite Ec. cbn [bind]. assert (counts = zlen <$> C) as ->.
    { apply zlook_ext_lt; [rewrite zlen_fmap; lia|]. intros p Hp. destruct (zlook_lt counts p Hp) as [c Hcp]. rewrite Hcp. destruct (Hc p c Hcp) as (x & Hx & ->). rewrite zlook_fmap, Hx. done. }
    destruct (starts_ok N (zlen <$> C)) as (d & Ed & D1 & D2); [lia|lia|]. rewrite Ed. cbn [bind]. rewrite sum_zsum, <- zlen_concat.
    assert (Hpos : forall v, v ∈ zlen <$> C -> 0 <= v) by (intros v Hv; apply elem_of_list_fmap in Hv as (y & -> & _); apply zlen_nonneg).
    assert (W : wp (allToAllV N w senders (zlen (concat C)) (zlen <$> C) d) (fun rb => zlen rb = zlen (concat C) /\ forall p x k, C @ p = Some x -> 0 <= k < zlen x -> rb @ (zsum (take (Z.to_nat p) (zlen <$> C)) + k) = Some <$> (x @ k)) False).
    { unfold allToAllV. pose proof (zlen_nonneg (concat C)) as Hcn.
      eapply (wp_forZ (fun i rb => zlen rb = zlen (concat C) /\ forall p x k, p < i -> C @ p = Some x -> 0 <= k < zlen x -> rb @ (zsum (take (Z.to_nat p) (zlen <$> C)) + k) = Some <$> (x @ k))); [lia| | |].
      - split; [unfold zlen at 1; rewrite replicate_length; lia|]. intros p x k Hp Hx. apply zlook_Some_lt in Hx. lia.
      - intros i rb Hi [R1 R2]. apply wp_bind, wp_rd; [lia|]. intros [[sc sd] sb] Hr. destruct (Hse i _ Hr) as (s & Hs & E1 & E2 & E3 & E4). cbn [fst snd] in *. destruct (HCat i Hi) as (s' & x & Hs' & Hx & HCx). rewrite Hs in Hs'. injection Hs' as <-.
        apply wp_bind. assert (Hsc : sc @ w = Some (zlen x)) by (rewrite E1, zlook_fmap, Hx; done). rewrite (rd_ok _ _ _ Hsc). cbn [wp].
        apply wp_bind. rewrite (rd_ok _ _ _ (E3 w Hw)). cbn [wp]. apply wp_bind. assert (Hcc : (zlen <$> C) @ i = Some (zlen x)) by (rewrite zlook_fmap, HCx; done). rewrite (rd_ok _ _ _ Hcc). cbn [wp]. apply wp_bind. rewrite (rd_ok _ _ _ (D2 i Hi)). cbn [wp].
        rewrite Z.eqb_refl. cbn [negb ubif]. destruct (concat_bound s w x Hx) as [B1 B2]. destruct (concat_bound C i x HCx) as [B3 B4]. pose proof (zlen_nonneg x).
        eapply wp_mo; [|apply (copy_seg sb rb (zlen x)); [done|done|rewrite E4, zlen_fmap; lia|done|lia]]. intros r [L1 L2]. split; [lia|]. intros p y k Hp Hy Hk. rewrite L2. pose proof (zlook_Some_lt _ _ _ Hy) as Hpr.
        destruct (decide (p = i)) as [->|].
        + rewrite HCx in Hy. injection Hy as <-. match goal with |- context [if ?b then _ else _] => replace b with true by lia end. replace (zsum (take (Z.to_nat i) (zlen <$> C)) + k - zsum (take (Z.to_nat i) (zlen <$> C))) with k by lia. rewrite E4, zlook_fmap, (concat_at s w x k Hx Hk). done.
        + assert (Hyl : (zlen <$> C) @ p = Some (zlen y)) by (rewrite zlook_fmap, Hy; done). pose proof (sums_mono (zlen <$> C) p i (zlen y) Hpos ltac:(lia) Hyl). match goal with |- context [if ?b then _ else _] => replace b with false by lia end. apply R2; [lia|done..].
      - intros rb [R1 R2]. split; [done|]. intros p x k Hx. apply R2; [apply zlook_Some_lt in Hx; lia|done]. }
    destruct (allToAllV N w senders (zlen (concat C)) (zlen <$> C) d) as [rb| | |]; cbn [wp] in W; [|done..]. destruct W as [W1 W2]. cbn [bind].
    match goal with |- exists r, collect N ?f = _ /\ _ => destruct (collect_ok N f (fun i x => C @ i = Some x)) as (res & Er & Lr & Hr) end; [lia| |].
    + intros i Hi. rewrite (rd_ok _ _ _ (D2 i Hi)). cbn [bind]. destruct (HCat i Hi) as (s & x & Hs & Hx & HCx). assert (Hcc : (zlen <$> C) @ i = Some (zlen x)) by (rewrite zlook_fmap, HCx; done). rewrite (rd_ok _ _ _ Hcc). cbn [bind]. destruct (concat_bound C i x HCx) as [B3 B4]. pose proof (zlen_nonneg x).
      unfold saveBlock. match goal with |- context [ubif ?b _] => replace b with false by lia end. cbn [ubif bind]. fold (sub rb (zsum (take (Z.to_nat i) (zlen <$> C))) (zsum (take (Z.to_nat i) (zlen <$> C)) + zlen x)).
      assert (sub rb (zsum (take (Z.to_nat i) (zlen <$> C))) (zsum (take (Z.to_nat i) (zlen <$> C)) + zlen x) = Some <$> x) as ->.
      { apply zlook_ext_lt; [rewrite zlen_sub by lia; rewrite zlen_fmap; lia|]. intros k Hk. rewrite zlen_sub in Hk by lia. rewrite FillLib.zlook_sub by lia. rewrite (W2 i x k HCx) by lia. by rewrite zlook_fmap. }
      rewrite initialised_ok. eauto.
    + eexists. split; [exact Er|]. apply zlook_ext_lt; [lia|]. intros i Hi. destruct (zlook_lt res i Hi) as [x Hx]. rewrite Hx. by rewrite (Hr i x Hx).
  - rewrite Eo. f_equal. apply zlook_ext_lt; [rewrite zlen_fmap; unfold zlen at 2; rewrite seqZ_length; lia|]. intros w Hw. destruct (zlook_lt out w Hw) as [o Hx]. rewrite Hx, (Ho w o Hx). rewrite zlook_fmap, zlook_to_nat, lookup_seqZ_lt by lia. cbn. do 2 f_equal. lia.
Qed.
End All.
