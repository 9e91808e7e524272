(** The spread from seeds. *)
From stdpp Require Import relations.
From Coq Require Import ZifyBool ZifyNat.
From Verif Require Import Base DataArray FillLib IndexSpec PartSpec UmModel UmSpec UmProofs4 ZnModel ZnSpec ZnProofs.
Local Open Scope Z_scope.

Lemma leads_S R seeds k j : leads R seeds (S k) j <-> exists i, leads R seeds k i /\ R i j.
Proof.
  split.
  - intros (s & Hs & H). replace (S k) with (k + 1)%nat in H by lia. apply nsteps_add_inv in H as (i & H1 & H2). apply nsteps_once_inv in H2. exists i. split; [by exists s|done].
  - intros (i & (s & Hs & H) & HR). exists s. split; [done|]. by eapply nsteps_r.
Qed.
Lemma leads_0 R seeds j : leads R seeds 0 j <-> j ∈ seeds.
Proof. split; [intros (s & Hs & H); inversion H; by subst|]. intros H. exists j. split; [done|constructor]. Qed.
Lemma leads_mono (R R' : Z -> Z -> Prop) seeds k j : (forall i j, R i j -> R' i j) -> leads R seeds k j -> leads R' seeds k j.
Proof. intros H. revert j. induction k as [|k IH]; intros j; [by rewrite !leads_0|]. rewrite !leads_S. intros (i & Hi & HR). exists i. auto. Qed.
Lemma leads_rtc R seeds j : (exists k, leads R seeds k j) <-> exists s, s ∈ seeds /\ rtc R s j.
Proof.
  split.
  - intros (k & s & Hs & H). exists s. split; [done|]. apply rtc_nsteps. by exists k.
  - intros (s & Hs & H). apply rtc_nsteps in H as [k H]. exists k, s. done.
Qed.

Section Spread.
  Variables (n : Z) (arr : list Z) (arrI : da Z).
  Hypothesis HG : graph n arr (da_vals arrI).
  Hypothesis Hnt : da_nt arrI = n + 1.
  Hypothesis Hn : 0 <= n.

  Lemma spreadAlg_ok f0 seeds depth : zlen f0 = n -> (forall i, i ∈ seeds -> 0 <= i < n) ->
    let R := fun i j => link arr (da_vals arrI) i j /\ f0 @ j <> Some true in
    exists f ids nb, spreadAlg f0 seeds arr arrI depth = Ok (f, ids, nb) /\ zlen f = n /\ ascending ids /\
      (forall j, j ∈ ids <-> exists k, leads R seeds k j /\ in_limit depth k) /\
      (forall j, f @ j = Some true <-> f0 @ j = Some true \/ j ∈ ids) /\
      0 <= nb /\ (forall q : nat, Z.of_nat q < nb <-> (exists j, distance R seeds q j) /\ (depth = -1 \/ Z.of_nat q < depth)).
  Proof using HG Hnt Hn.
    intros Hf0 Hs R. unfold spreadAlg. rewrite Hnt. replace (n + 1 - 1) with n by lia. unfold ifthrow. replace (n <? 0) with false by lia.
    destruct (markSeeds_ok n seeds f0 (replicate (Z.to_nat n) false) Hf0) as (f1 & g1 & -> & L1 & L2 & H1 & H2); [rewrite zlen_replicate; lia|done|].
    cbn [bind].
    assert (Hrep : forall j, replicate (Z.to_nat n) false @ j <> Some true). { intros j Hj. apply zlook_elem in Hj. by apply elem_of_replicate_inv in Hj. }
    set (I := fun s : list bool * list bool * list Z * Z => let '(f, f2, ids, nb) := s in exists p : nat, nb = Z.of_nat p /\ zlen f = n /\ zlen f2 = n /\
      (forall i, i ∈ ids -> 0 <= i < n) /\ (forall j, j ∈ ids <-> distance R seeds p j) /\
      (forall j, f2 @ j = Some true <-> j ∈ ids \/ exists k, (k < p)%nat /\ leads R seeds k j) /\
      (forall j, leads R seeds p j -> j ∈ ids \/ exists k, (k < p)%nat /\ leads R seeds k j) /\
      (forall j, f @ j = Some true <-> f0 @ j = Some true \/ f2 @ j = Some true) /\
      (forall q, (q < p)%nat -> (exists j, distance R seeds q j) /\ (depth = -1 \/ Z.of_nat q < depth))).
    assert (W : wp (whileM (S (S (length f1)))
      (fun '(_, _, ids, nb) => Ok (negb (zlen ids =? 0) && ((depth =? -1) || (nb <? depth))))
      (fun '(fetched, fetched2, ids, nb) =>
        let* (fetched, fetched2, other) := onePeel arr (da_vals arrI) ids fetched fetched2 in Ok (fetched, fetched2, other, nb + 1))
      (f1, g1, seeds, 0)) (fun s => I s /\ let '(_, _, ids, nb) := s in ids = [] \/ depth <> -1 /\ depth <= nb) False).
    { apply (wp_whileM I (fun '(f, _, ids, _) => (nfalse f + (if decide (ids = []) then 0 else 1))%nat)).
      - exists 0%nat. split; [done|]. split; [done|]. split; [done|]. split; [done|]. split; [|split; [|split; [|split]]].
        + intros j. unfold distance. rewrite leads_0. split; [intros H; split; [done|lia]|by intros [? _]].
        + intros j. rewrite H2. split; [intros [H|H]; [by apply Hrep in H|by left]|]. intros [H|(k & Hk & _)]; [by right|lia].
        + intros j. rewrite leads_0. by left.
        + intros j. rewrite H1, H2. split; intros [H|H]; [by left|by right; right|by left|]. destruct H as [H|H]; [by apply Hrep in H|by right].
        + intros q Hq. lia.
      - pose proof (nfalse_le f1). destruct (decide (seeds = [])); lia.
      - intros [[[f f2] ids] nb] HI. cbn [wp]. destruct HI as (p & -> & Lf & Lf2 & Hi & Hd & Hf2 & Hlv & Hf & Hq).
        destruct (negb (zlen ids =? 0) && ((depth =? -1) || (Z.of_nat p <? depth))) eqn:Ec.
        + destruct (onePeel_ok n arr (da_vals arrI) HG ids f f2 Lf Lf2 Hi) as (f' & f2' & other & -> & L1' & L2' & Ho & Hf' & Hf2' & Hc). cbn [bind wp].
          assert (Hne : ids <> []). { intros ->. rewrite zlen_nil in Ec. cbn in Ec. done. }
          split.
          * exists (S p). split; [lia|]. split; [done|]. split; [done|].
            assert (Ho' : forall j, j ∈ other <-> distance R seeds (S p) j).
            { intros j. rewrite Ho. split.
              - intros (Hfj & i & Hii & Hl). assert (Hnf : f @ j <> Some true) by congruence. rewrite Hf in Hnf. split.
                + apply leads_S. exists i. split; [by apply Hd in Hii as [? _]|]. split; [done|]. tauto.
                + intros k' Hk'. destruct (Nat.le_gt_cases (S p) k') as [|Hk]; [done|]. exfalso. apply Hnf. right. apply Hf2. destruct (Nat.eq_dec k' p) as [->|]; [by apply Hlv|].
                  right. exists k'. split; [lia|done].
              - intros [Hl Hm]. apply leads_S in Hl as (i & Hl & Hli & Hnx). assert (Hii : i ∈ ids).
                { apply Hlv in Hl as [Hl|(k & Hk & Hl)]; [done|]. assert (Hl' : leads R seeds (S k) j) by (apply leads_S; exists i; done). apply Hm in Hl'. lia. }
                pose proof (Hi _ Hii) as Hir. pose proof (link_range n arr (da_vals arrI) HG i j Hir Hli) as Hjr. split; [|by exists i].
                apply not_true; [lia|]. rewrite Hf. intros [?|Hx]; [done|]. apply Hf2 in Hx as [Hx|(k & Hk & Hx)]; [apply Hd in Hx as [Hx _]|]; apply Hm in Hx; lia. }
            split; [|split; [done|split; [|split; [|split]]]].
            -- intros j Hj. apply Ho in Hj as (Hj & _). apply zlook_Some_lt in Hj. lia.
            -- intros j. rewrite Hf2', Hf2. split.
               ++ intros [[Hj|(k & Hk & Hj)]|Hj]; [right|right|by left]; [exists p|exists k]; (split; [lia|]); [by apply Hd in Hj as [? _]|done].
               ++ intros [Hj|(k & Hk & Hj)]; [by right|left]. destruct (Nat.eq_dec k p) as [->|]; [by apply Hlv|]. right. exists k. split; [lia|done].
            -- intros j Hl. pose proof Hl as Hl0. apply leads_S in Hl as (i & Hl & Hli & Hnx). apply Hlv in Hl as [Hii|(k & Hk & Hl)].
               ++ pose proof (link_range n arr (da_vals arrI) HG i j (Hi _ Hii) Hli) as Hjr. destruct (zlook_lt f j ltac:(lia)) as [[] Hj].
                  ** right. apply Hf in Hj as [Hj|Hj]; [done|]. apply Hf2 in Hj as [Hj|(k & Hk & Hj)]; [exists p|exists k]; (split; [lia|]); [by apply Hd in Hj as [? _]|done].
                  ** left. apply Ho. split; [done|]. by exists i.
               ++ right. exists (S k). split; [lia|]. apply leads_S. exists i. done.
            -- intros j. rewrite Hf', Hf, Hf2'. tauto.
            -- intros q Hqp. destruct (Nat.eq_dec q p) as [->|]; [|apply Hq; lia]. split; [|lia]. destruct ids as [|i ids]; [done|]. exists i. apply Hd. apply elem_of_cons. by left.
          * destruct (decide (ids = [])); [done|]. destruct (decide (other = [])) as [->|]; [cbn in Hc; lia|]. destruct other; [done|]. cbn in Hc. lia.
        + split; [exists p; done|]. destruct ids as [|i ids]; [by left|right]. pose proof (zlen_nonneg ids). rewrite zlen_cons in Ec. lia. }
    apply wp_ok in W as ([[[f f2] ids] nb] & -> & (p & -> & Lf & Lf2 & Hi & Hd & Hf2 & Hlv & Hf & Hq) & Hend). cbn [bind].
    exists f, (switchedOn 0 f2), (Z.of_nat p). split; [done|]. split; [done|]. split; [apply switchedOn_asc|].
    assert (Hsw : forall j, j ∈ switchedOn 0 f2 <-> f2 @ j = Some true). { intros j. rewrite switchedOn_elem, Z.sub_0_r. split; [by intros [_ ?]|]. intros H. split; [|done]. apply zlook_Some_lt in H. lia. }
    assert (Hemp : ids = [] -> forall k j, leads R seeds k j -> exists k', (k' < p)%nat /\ (k' <= k)%nat /\ leads R seeds k' j).
    { intros ->. induction k as [|k IH]; intros j Hk.
      - destruct p as [|p]; [|exists 0%nat; split; [lia|]; split; [lia|done]]. apply Hlv in Hk as [Hk|(k & Hk & _)]; [by apply elem_of_nil in Hk|lia].
      - destruct (Nat.lt_ge_cases (S k) p) as [Hkp|Hkp]; [exists (S k); done|].
        apply leads_S in Hk as (i & Hk & HR). apply IH in Hk as (k' & H1' & H2' & Hk'). assert (Hj : leads R seeds (S k') j) by (apply leads_S; exists i; done).
        destruct (Nat.eq_dec (S k') p) as [E|]; [|exists (S k'); split; [lia|]; split; [lia|done]].
        rewrite E in Hj. apply Hlv in Hj as [Hj|(k2 & Hk2 & Hj)]; [by apply elem_of_nil in Hj|]. exists k2. split; [lia|]. split; [lia|done]. }
    split; [|split; [|split; [lia|]]].
    - intros j. rewrite Hsw, Hf2. split.
      + assert (Hlim : forall k, (k <= p)%nat -> in_limit depth k).
        { intros k Hk. unfold in_limit. destruct p as [|p]; [lia|]. destruct (Hq p ltac:(lia)) as [_ ?]. lia. }
        intros [Hj|(k & Hk & Hj)]; [exists p|exists k]; (split; [|apply Hlim; lia]); [by apply Hd in Hj as [? _]|done].
      + intros (k & Hl & Hk). destruct Hend as [E|[Hd1 Hd2]].
        * right. destruct (Hemp E k j Hl) as (k' & ? & _ & ?). by exists k'.
        * destruct Hk as [?|Hk]; [done|]. assert (Hkp : (k <= p)%nat) by lia. destruct (Nat.eq_dec k p) as [->|]; [by apply Hlv|]. right. exists k. split; [lia|done].
    - intros j. rewrite Hsw. apply Hf.
    - intros q. split; [intros Hqp; apply Hq; lia|]. intros [(j & Hl & Hm) Hlim]. destruct (Nat.lt_ge_cases q p) as [|Hqp]; [lia|]. exfalso. destruct Hend as [E|[Hd1 Hd2]]; [|lia].
      destruct (Hemp E q j Hl) as (k' & ? & _ & Hk'). apply Hm in Hk'. lia.
  Qed.
End Spread.

(** Seeds out of the cells are refused. *)
Lemma markSeeds_throw n seeds f f2 : zlen f = n -> zlen f2 = n -> (exists i, i ∈ seeds /\ ~ 0 <= i < n) -> markSeeds n seeds f f2 = Throw.
Proof.
  revert f f2. induction seeds as [|s seeds IH]; intros f f2 Hf Hf2 (i & Hi & Hr); [by apply elem_of_nil in Hi|]. unfold markSeeds in *. cbn [foldM]. unfold ifthrow at 1.
  destruct (negb ((0 <=? s) && (s <? n))) eqn:E; [done|]. rewrite (wr_ok f) by lia. cbn [bind]. rewrite (wr_ok f2) by lia. cbn [bind].
  apply IH; [by rewrite zlen_zset|by rewrite zlen_zset|]. exists i. split; [|done]. apply elem_of_cons in Hi as [->|Hi]; [lia|done].
Qed.
