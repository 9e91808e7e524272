(** Spread from seeds and partition in zones. *)
From stdpp Require Import relations.
From Coq Require Import ZifyBool ZifyNat.
From Verif Require Import Base DataArray FillLib IndexSpec RenumSpec PartSpec UmModel UmSpec ArrLib UmProofs4 ZnModel ZnSpec ZnProofs ZnProofs2.
Local Open Scope Z_scope.

Lemma leads_iff (R R' : Z -> Z -> Prop) seeds k j : (forall i j, R i j <-> R' i j) -> leads R seeds k j <-> leads R' seeds k j.
Proof. intros H. split; apply leads_mono; intros; by apply H. Qed.
Lemma distance_iff (R R' : Z -> Z -> Prop) seeds k j : (forall i j, R i j <-> R' i j) -> distance R seeds k j <-> distance R' seeds k j.
Proof.
  intros H. assert (L := fun k j => leads_iff R R' seeds k j H). unfold distance. rewrite L. split; (intros [H1 H2]; split; [done|]); intros k' Hk'; apply H2; by apply L.
Qed.

Lemma fromSeed_ok n arr arrI seeds depth : graph n arr arrI -> 0 <= n -> (forall s, s ∈ seeds -> 0 <= s < n) ->
  exists ids nb, ComputeSpreadZoneGraduallyFromSeed seeds (vec arr) (vec arrI) depth = Ok (ids, nb) /\ ascending ids /\
    (forall j, j ∈ ids <-> exists k, leads (link arr arrI) seeds k j /\ in_limit depth k) /\
    0 <= nb /\ (forall q : nat, Z.of_nat q < nb <-> (exists j, distance (link arr arrI) seeds q j) /\ (depth = -1 \/ Z.of_nat q < depth)).
Proof.
  intros HG Hn Hs. unfold ComputeSpreadZoneGraduallyFromSeed. rewrite da_nt_vec. pose proof (proj1 HG) as HL. rewrite HL. replace (n + 1 - 1) with n by lia.
  destruct (Z.leb_spec n 0) as [Hn0|Hn0].
  - assert (seeds = []) as ->. { destruct seeds as [|s l]; [done|]. specialize (Hs s). rewrite elem_of_cons in Hs. destruct Hs; [by left|lia]. }
    assert (Hno : forall k j, ~ leads (link arr arrI) [] k j) by (intros k j (s & Hs' & _); by apply elem_of_nil in Hs').
    exists [], 0. split; [done|]. split; [done|]. split; [|split; [done|]].
    + intros j. rewrite elem_of_nil. split; [done|]. intros (k & Hk & _). by apply Hno in Hk.
    + intros q. split; [lia|]. intros [(j & Hj & _) _]. by apply Hno in Hj.
  - destruct (spreadAlg_ok n arr (vec arrI) HG ltac:(by rewrite da_nt_vec, HL) ltac:(lia) (replicate (Z.to_nat n) false) seeds depth) as (f & ids & nb & E & _ & Ha & Hi & _ & Hnb & Hq).
    { rewrite zlen_replicate. lia. } { done. }
    cbn [da_vals vec] in *. rewrite E. cbn [bind]. exists ids, nb.
    assert (HR : forall i j, link arr arrI i j /\ replicate (Z.to_nat n) false @ j <> Some true <-> link arr arrI i j).
    { intros i j. split; [by intros [? _]|]. intros H. split; [done|]. intros Hj. apply zlook_elem in Hj. by apply elem_of_replicate_inv in Hj. }
    split; [done|]. split; [done|]. split; [|split; [done|]].
    + intros j. rewrite Hi. split; intros (k & Hk & Hl); exists k; (split; [|done]); revert Hk; apply leads_iff; [done|]; intros; by rewrite HR.
    + intros q. rewrite Hq. split; intros [(j & Hj) Hl]; (split; [|done]); exists j; revert Hj; apply distance_iff; [done|]; intros; by rewrite HR.
Qed.
Lemma fromSeed_throw n arr arrI seeds depth : zlen arrI = n + 1 -> 0 < n -> (exists s, s ∈ seeds /\ ~ 0 <= s < n) -> ComputeSpreadZoneGraduallyFromSeed seeds (vec arr) (vec arrI) depth = Throw.
Proof.
  intros HL Hn Hs. unfold ComputeSpreadZoneGraduallyFromSeed, spreadAlg. rewrite da_nt_vec, HL. replace (n + 1 - 1) with n by lia. replace (n <=? 0) with false by lia.
  unfold ifthrow. replace (n <? 0) with false by lia. rewrite markSeeds_throw; [done|rewrite zlen_replicate; lia|rewrite zlen_replicate; lia|done].
Qed.

Lemma findFalse_ok v : 0 <= findFalse v <= zlen v /\ (forall i, 0 <= i < findFalse v -> v @ i = Some true) /\ (findFalse v < zlen v -> v @ findFalse v = Some false).
Proof.
  induction v as [|b v (IH1 & IH2 & IH3)]; cbn [findFalse]; [change (zlen (@nil bool)) with 0; split; [lia|]; split; intros; lia|].
  rewrite zlen_cons. destruct b.
  - split; [lia|]. split.
    + intros i Hi. rewrite zlook_cons. destruct (Z.eqb_spec i 0); [done|]. apply IH2. lia.
    + intros H. rewrite zlook_cons. destruct (Z.eqb_spec (1 + findFalse v) 0); [lia|]. replace (1 + findFalse v - 1) with (findFalse v) by lia. apply IH3. lia.
  - pose proof (zlen_nonneg v). split; [lia|]. split; [lia|]. intros _. done.
Qed.

(** * Zones as such *)
Lemma zones_closed R n zs t : zones R n zs -> forall i j, i ∈ concat (take t zs) -> R i j -> j ∈ concat (take t zs).
Proof.
  intros [_ HZ]. induction t as [|t IH]; intros i j Hi HR; [by apply elem_of_nil in Hi|].
  destruct (zs !! t) as [z|] eqn:E.
  - rewrite (take_S_r _ _ z E), concat_app in Hi |- *. cbn [concat] in *. rewrite app_nil_r in *. apply elem_of_app in Hi as [Hi|Hi]; apply elem_of_app; [left; by eapply IH|].
    assert (Ez : zs @ Z.of_nat t = Some z) by (rewrite zlook_to_nat by lia; by rewrite Nat2Z.id). destruct (HZ _ _ Ez) as (s & Hs & _ & _ & _ & Hz). rewrite Nat2Z.id in Hz.
    destruct (decide (j ∈ concat (take t zs))) as [|Hj]; [by left|right]. apply Hz. split; [|done]. apply Hz in Hi as [Hi _]. by eapply rtc_r.
  - assert (Hl : take (S t) zs = take t zs) by (apply lookup_ge_None_1 in E; rewrite !take_ge by lia; done). rewrite Hl in Hi |- *. by eapply IH.
Qed.
Lemma zones_closed_rtc R n zs t i j : zones R n zs -> i ∈ concat (take t zs) -> rtc R i j -> j ∈ concat (take t zs).
Proof. intros HZ Hi H. induction H as [|x y z HR _ IH]; [done|]. apply IH. by eapply zones_closed. Qed.
Lemma zones_NoDup R n zs : zones R n zs -> NoDup (concat zs).
Proof.
  intros HZ. rewrite <- (take_ge zs (length zs)) by lia. generalize (length zs) as t. induction t as [|t IH]; [constructor|]. destruct (zs !! t) as [z|] eqn:E.
  - rewrite (take_S_r _ _ z E), concat_app. cbn [concat]. rewrite app_nil_r. apply NoDup_app. split; [done|].
    assert (Ez : zs @ Z.of_nat t = Some z) by (rewrite zlook_to_nat by lia; by rewrite Nat2Z.id). destruct (proj2 HZ _ _ Ez) as (s & Hs & _ & _ & Ha & Hz). rewrite Nat2Z.id in Hz. split.
    + intros x Hx Hx'. apply Hz in Hx' as [_ ?]. done.
    + clear -Ha. induction z as [|x z IH]; [constructor|]. destruct Ha as [H1 H2]. constructor; [|by apply IH]. intros Hx. apply H1 in Hx. lia.
  - assert (Hl : take (S t) zs = take t zs) by (apply lookup_ge_None_1 in E; rewrite !take_ge by lia; done). by rewrite Hl.
Qed.
(** A relation between cells: the zones hold each cell once. *)
Lemma zones_all R n zs : zones R n zs -> (forall i j, 0 <= i < n -> R i j -> 0 <= j < n) -> Permutation (concat zs) (seqZ 0 n).
Proof.
  intros HZ HR. apply NoDup_Permutation; [by eapply zones_NoDup|apply NoDup_seqZ|]. intros i. rewrite elem_of_seqZ. split.
  - intros Hi. apply elem_of_list_In, in_concat in Hi as (z & Hz & Hi). apply elem_of_list_In in Hz, Hi. apply elem_of_zlook in Hz as [t Hz]. destruct (proj2 HZ _ _ Hz) as (s & Hs & _ & _ & _ & Hm).
    destruct (proj1 (Hm i) Hi) as [Hr _]. assert (G : forall x y, rtc R x y -> 0 <= x < n -> 0 <= y < n). { intros x y H. induction H as [|x y w HR' _ IH]; [done|]. intros Hx. apply IH. by eapply HR. }
    specialize (G s i Hr Hs). lia.
  - intros Hi. apply (proj1 HZ). lia.
Qed.
Lemma zones_sym R n zs t z i j : zones R n zs -> (forall i j, R i j -> R j i) -> zs @ t = Some z -> i ∈ z -> j ∈ z <-> rtc R i j.
Proof.
  intros HZ HS Hz Hi. destruct (proj2 HZ _ _ Hz) as (s & Hs & _ & _ & _ & Hm). assert (HS' : forall i j, rtc R i j -> rtc R j i).
  { intros x y H. induction H as [|x y z' HR _ IH]; [done|]. eapply rtc_r; [exact IH|]. by apply HS. }
  destruct (proj1 (Hm i) Hi) as [Hi1 Hni]. rewrite Hm. split.
  - intros [Hj _]. etransitivity; [apply HS'; exact Hi1|done].
  - intros H. split; [by transitivity i|]. intros Hj. apply Hni. eapply zones_closed_rtc; [done|exact Hj|]. by apply HS'.
Qed.
Lemma zones_iff (R R' : Z -> Z -> Prop) n zs : (forall i j, R i j <-> R' i j) -> zones R n zs -> zones R' n zs.
Proof.
  intros HR [H1 H2]. split; [done|]. intros t z Hz. destruct (H2 t z Hz) as (s & Hs & Hn & Hl & Ha & Hm). exists s. split; [done|]. split; [done|]. split; [done|]. split; [done|].
  intros j. rewrite Hm. assert (E : rtc R s j <-> rtc R' s j); [|by rewrite E]. split; apply rtc_subrel; intros x y; by apply HR.
Qed.

(** * The partition *)
Lemma partition_ok n arr arrI : graph n arr arrI -> 0 <= n -> exists zs, PartitionBySpreadZone (vec arr) (vec arrI) = Ok zs /\ zones (link arr arrI) n zs.
Proof.
  intros HG Hn. pose proof (proj1 HG) as HL. unfold PartitionBySpreadZone. cbn [checkAllocated vec da_alloc da_nc da_vals]. fold (vec arrI). rewrite da_nt_vec, HL. unfold ifthrow.
  change (1 =? 1) with true. cbn [negb orb]. replace (n + 1 <? 1) with false by lia. replace (n + 1 - 1) with n by lia. destruct (Z.leb_spec n 0) as [Hn0|Hn0].
  - exists []. split; [done|]. split; [lia|]. intros t z Hz. rewrite zlook_nil in Hz. done.
  - set (R := link arr arrI).
    set (I := fun s : Z * list bool * list (list Z) => let '(seed, f, ret) := s in zlen f = n /\ 0 <= seed <= n /\ (forall j, f @ j = Some true <-> j ∈ concat ret) /\
      (forall i, 0 <= i < seed -> i ∈ concat ret) /\ (seed < n -> f @ seed = Some false) /\ (forall i j, i ∈ concat ret -> R i j -> j ∈ concat ret) /\
      forall t z, ret @ t = Some z -> exists s, 0 <= s < n /\ s ∉ concat (take (Z.to_nat t) ret) /\ (forall i, 0 <= i < s -> i ∈ concat (take (Z.to_nat t) ret)) /\
        ascending z /\ forall j, j ∈ z <-> rtc R s j /\ j ∉ concat (take (Z.to_nat t) ret)).
    match goal with |- context [whileM ?a ?b ?c ?d] => assert (W : wp (whileM a b c d) (fun s => I s /\ n <= s.1.1) False) end.
    { apply (wp_whileM I (fun '(seed, _, _) => Z.to_nat (n - seed))).
      - split; [rewrite zlen_replicate; lia|]. split; [lia|]. split; [|split; [lia|split; [|split]]].
        + intros j. rewrite elem_of_nil. split; [|done]. intros Hj. apply zlook_elem in Hj. by apply elem_of_replicate_inv in Hj.
        + intros _. rewrite zlook_replicate by lia. done.
        + intros i j Hi. by apply elem_of_nil in Hi.
        + intros t z Hz. rewrite zlook_nil in Hz. done.
      - lia.
      - intros [[seed f] ret] (Lf & Hsd & Hf & Hlow & Hfr & Hcl & HZ). cbn [wp]. destruct (Z.ltb_spec seed n) as [Hlt|Hge].
        + specialize (Hfr Hlt).
          destruct (spreadAlg_ok n arr (vec arrI) HG ltac:(by rewrite da_nt_vec, HL) ltac:(lia) f [seed] (-1) Lf) as (f' & ids & nb & E & Lf' & Ha & Hi & Hf' & _ & _).
          { intros i Hi. apply elem_of_list_singleton in Hi as ->. lia. }
          cbn [da_vals vec] in *. fold (vec arrI) in *. rewrite E. cbn [bind wp]. fold R in Hi.
          assert (Hns : seed ∉ concat ret) by (rewrite <- Hf; congruence).
          assert (Hm : forall j, j ∈ ids <-> rtc R seed j /\ j ∉ concat ret).
          { intros j. rewrite Hi. split.
            - intros (k & Hk & _). split.
              + assert (exists s, s ∈ [seed] /\ rtc R s j) as (s & Hs & Hr); [|apply elem_of_list_singleton in Hs as ->; done]. apply leads_rtc. exists k. revert Hk. apply leads_mono. by intros ? ? [? _].
              + destruct k as [|k]; [apply leads_0, elem_of_list_singleton in Hk as ->; done|]. apply leads_S in Hk as (i & _ & _ & Hk). by rewrite <- Hf.
            - intros [Hr Hj]. assert (exists k, leads R [seed] k j) as [k Hk] by (apply leads_rtc; exists seed; split; [by apply elem_of_list_singleton|done]).
              exists k. split; [|by left]. clear Hr. revert j Hj Hk. induction k as [|k IH]; intros j Hj Hk; [by apply leads_0; apply leads_0 in Hk|].
              apply leads_S in Hk as (i & Hk & HR). apply leads_S. exists i. split; [apply IH; [|done]|split; [done|by rewrite Hf]]. intros Hx. apply Hj. by eapply Hcl. }
          destruct (findFalse_ok (drop (Z.to_nat seed) f')) as (F1 & F2 & F3). set (d := findFalse (drop (Z.to_nat seed) f')) in *.
          assert (Ld : zlen (drop (Z.to_nat seed) f') = n - seed) by (rewrite zlen_drop; lia). rewrite Ld in *.
          assert (Hd : 0 < d). { destruct (Z.eq_dec d 0) as [E0|]; [|lia]. rewrite E0 in F3. specialize (F3 ltac:(lia)). rewrite zlook_drop in F3 by lia. assert (f' @ seed = Some true); [|replace (Z.of_nat (Z.to_nat seed) + 0) with seed in F3 by lia; congruence].
            apply Hf'. right. apply Hm. split; [reflexivity|done]. }
          split; [|lia]. split; [done|]. split; [lia|]. split; [|split; [|split; [|split]]].
          * intros j. rewrite Hf', Hf, concat_app, elem_of_app. cbn [concat]. rewrite app_nil_r. done.
          * intros i Hir. rewrite concat_app, elem_of_app. cbn [concat]. rewrite app_nil_r. destruct (Z.lt_ge_cases i seed); [left; by apply Hlow; lia|].
            rewrite <- Hf, <- Hf'. specialize (F2 (i - seed) ltac:(lia)). rewrite zlook_drop in F2 by lia. rewrite <- F2. f_equal. lia.
          * intros Hx. specialize (F3 ltac:(lia)). rewrite zlook_drop in F3 by lia. rewrite <- F3. f_equal. lia.
          * intros i j. rewrite concat_app, !elem_of_app. cbn [concat]. rewrite app_nil_r. intros [Hx|Hx] HR; [left; by eapply Hcl|]. destruct (decide (j ∈ concat ret)); [by left|right].
            apply Hm. split; [|done]. apply Hm in Hx as [Hx _]. by eapply rtc_r.
          * intros t z Hz. rewrite zlook_app in Hz. destruct (Z.ltb_spec t (zlen ret)) as [Ht|Ht].
            -- rewrite take_app_le by (unfold zlen in Ht; lia). by apply HZ.
            -- pose proof (zlook_Some_lt _ _ _ Hz) as Hr. change (zlen [ids]) with 1 in Hr. assert (t - zlen ret = 0) as E0 by lia. rewrite E0 in Hz. cbn in Hz. injection Hz as <-.
               assert (take (Z.to_nat t) (ret ++ [ids]) = ret) as ->. { assert (Z.to_nat t = length ret) as -> by (unfold zlen in *; lia). apply take_app. }
               exists seed. split; [lia|]. split; [done|]. split; [done|]. split; [done|]. exact Hm.
        + split; [|cbn; lia]. done. }
    apply wp_ok in W as ([[seed f] ret] & -> & (Lf & Hsd & Hf & Hlow & _ & _ & HZ) & Hge). cbn [bind]. exists ret. split; [done|]. cbn in Hge. split; [|done]. intros i Hi. apply Hlow. lia.
Qed.
