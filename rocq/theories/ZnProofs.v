(** Peels: the cells at each distance of the seeds. *)
From stdpp Require Import relations.
From Coq Require Import ZifyBool ZifyNat.
From Verif Require Import Base DataArray FillLib IndexSpec PartSpec UmModel UmSpec UmProofs4 ZnModel ZnSpec.
Local Open Scope Z_scope.

(** * Marks *)
Definition nfalse (f : list bool) : nat := length (List.filter negb f).
Lemma nfalse_zset f v : f @ v = Some false -> (nfalse (zset f v true) + 1 = nfalse f)%nat.
Proof.
  intros H. pose proof (zlook_Some_lt _ _ _ H) as Hr. rewrite zlook_to_nat in H by lia. unfold zset. remember (Z.to_nat v) as k. clear Heqk Hr.
  revert k H. induction f as [|b f IH]; intros [|k] H; try done; cbn in H.
  - injection H as ->. unfold nfalse. simpl. lia.
  - specialize (IH k H). unfold nfalse in *. simpl. destruct b; simpl; lia.
Qed.
Lemma nfalse_le f : (nfalse f <= length f)%nat.
Proof. unfold nfalse. induction f as [|[] f IH]; cbn; lia. Qed.
Lemma mark_elem (f : list bool) v j : 0 <= v < zlen f -> zset f v true @ j = Some true <-> f @ j = Some true \/ j = v.
Proof. intros H. rewrite zlook_zset by lia. destruct (Z.eqb_spec j v) as [->|Hn]; split; intros H'; [by right|done|by left|]. destruct H' as [H'| ->]; [done|lia]. Qed.
Lemma not_true (f : list bool) j : 0 <= j < zlen f -> f @ j <> Some true <-> f @ j = Some false.
Proof. intros H. destruct (zlook_lt f j H) as [[] ->]; split; congruence. Qed.

Lemma link_look arr arrI i j a b : arrI @ i = Some a -> arrI @ (i + 1) = Some b -> 0 <= a -> a <= b -> b <= zlen arr -> link arr arrI i j <-> exists u, a <= u < b /\ arr @ u = Some j.
Proof.
  intros Ha Hb H1 H2 H3. rewrite <- (elem_of_sub arr a b j) by lia. split.
  - intros (p & (a' & b' & Ha' & Hb' & _ & _ & _ & ->) & Hj). assert (a' = a) as -> by congruence. assert (b' = b) as -> by congruence. done.
  - intros Hj. exists (sub arr a b). split; [|done]. by exists a, b.
Qed.

Section Peel.
  Variables (n : Z) (arr arrI : list Z).
  Hypothesis HG : graph n arr arrI.

  Lemma link_range i j : 0 <= i < n -> link arr arrI i j -> 0 <= j < n.
  Proof using HG.
    intros Hi (p & Hp & Hj). destruct HG as [_ G]. destruct (G i Hi) as (q & Hq & Hr). apply Hr. destruct Hp as (a & b & Ha & Hb & _ & _ & _ & ->), Hq as (a' & b' & Ha' & Hb' & _ & _ & _ & ->).
    assert (a' = a) as -> by congruence. assert (b' = b) as -> by congruence. done.
  Qed.

  Lemma onePeel_ok ids f f2 : zlen f = n -> zlen f2 = n -> (forall i, i ∈ ids -> 0 <= i < n) ->
    exists f' f2' other, onePeel arr arrI ids f f2 = Ok (f', f2', other) /\ zlen f' = n /\ zlen f2' = n /\
      (forall j, j ∈ other <-> f @ j = Some false /\ exists i, i ∈ ids /\ link arr arrI i j) /\
      (forall j, f' @ j = Some true <-> f @ j = Some true \/ j ∈ other) /\ (forall j, f2' @ j = Some true <-> f2 @ j = Some true \/ j ∈ other) /\
      (nfalse f' + length other = nfalse f)%nat.
  Proof using HG.
    intros Hf Hf2 Hids.
    set (I := fun (P : Z -> Prop) (s : list bool * list bool * list Z) => let '(f', f2', other) := s in zlen f' = n /\ zlen f2' = n /\
      (forall j, j ∈ other <-> f @ j = Some false /\ P j) /\
      (forall j, f' @ j = Some true <-> f @ j = Some true \/ j ∈ other) /\ (forall j, f2' @ j = Some true <-> f2 @ j = Some true \/ j ∈ other) /\
      (nfalse f' + length other = nfalse f)%nat).
    assert (W : wp (onePeel arr arrI ids f f2) (I (fun j => exists i, i ∈ ids /\ link arr arrI i j)) False).
    { unfold onePeel. apply (wp_foldM _ (fun pre s => I (fun j => exists i, i ∈ pre /\ link arr arrI i j) s)); [| |done].
      - cbn. split; [done|]. split; [done|]. split; [|split; [|split; [|lia]]].
        + intros j. split; [by intros ?%elem_of_nil|]. intros (_ & i & Hi & _). by apply elem_of_nil in Hi.
        + intros j. rewrite elem_of_nil. tauto.
        + intros j. rewrite elem_of_nil. tauto.
      - intros pre it post s El HI. assert (Hit : 0 <= it < n) by (apply Hids; rewrite El; apply elem_of_app; right; apply elem_of_cons; by left).
        destruct HG as [_ G]. destruct (G it Hit) as (p & (a & b & Ha & Hb & H0 & Hab & Hbl & Ep) & Hr).
        rewrite (rd_ok _ _ _ Ha). cbn [bind]. rewrite (rd_ok _ _ _ Hb). cbn [bind]. unfold ubif. replace (b <? a) with false by lia.
        apply (wp_forZ (fun w s => I (fun j => (exists i, i ∈ pre /\ link arr arrI i j) \/ exists u, a <= u < w /\ arr @ u = Some j) s)); [lia| | |].
        + destruct s as [[f' f2'] other]. destruct HI as (L1 & L2 & Ho & H1 & H2 & Hc). split; [done|]. split; [done|]. split; [|done].
          intros j. rewrite Ho. split; [intros [? ?]; split; [done|by left]|]. intros [? [?|(u & Hu & _)]]; [done|lia].
        + intros w s' Hw HI'. destruct s' as [[f' f2'] other]. destruct HI' as (L1 & L2 & Ho & H1 & H2 & Hc).
          destruct (zlook_lt arr w ltac:(lia)) as [v Hv]. rewrite (rd_ok _ _ _ Hv). cbn [bind].
          assert (Hvn : 0 <= v < n). { apply Hr. rewrite Ep. apply elem_of_sub; [lia|lia|]. exists w. split; [lia|done]. }
          destruct (zlook_lt f' v ltac:(lia)) as [x Hx]. rewrite (rd_ok _ _ _ Hx). cbn [bind].
          destruct x.
          * cbn [wp]. split; [done|]. split; [done|]. split; [|done].
            intros j. rewrite Ho. split.
            -- intros [Hj [Hp|(u & Hu & Hj')]]; (split; [done|]); [by left|right]. exists u. split; [lia|done].
            -- intros [Hj [Hp|(u & Hu & Hj')]]; (split; [done|]); [by left|]. destruct (Z.eq_dec u w) as [->|Hn].
               ++ assert (j = v) as -> by congruence. apply H1 in Hx as [Hx|Hx]; [congruence|]. by apply Ho in Hx as [_ Hx].
               ++ right. exists u. split; [lia|done].
          * rewrite (wr_ok f') by lia. cbn [bind]. rewrite (wr_ok f2') by lia. cbn [bind].
            assert (Hfv : f @ v = Some false). { apply not_true; [lia|]. intros E. assert (f' @ v = Some true) by (apply H1; by left). congruence. }
            cbn [wp]. split; [by rewrite zlen_zset|]. split; [by rewrite zlen_zset|]. split; [|split; [|split]].
            -- intros j. rewrite elem_of_app, elem_of_list_singleton, Ho. split.
               ++ intros [[Hj [Hp|(u & Hu & Hj')]]| ->]; (split; [done|]); [by left| |]; right; [exists u; split; [lia|done]|exists w; split; [lia|done]].
               ++ intros [Hj [Hp|(u & Hu & Hj')]]; [left; split; [done|by left]|]. destruct (Z.eq_dec u w) as [->|Hn]; [right; congruence|].
                  left. split; [done|]. right. exists u. split; [lia|done].
            -- intros j. rewrite mark_elem by lia. rewrite H1, elem_of_app, elem_of_list_singleton. tauto.
            -- intros j. rewrite mark_elem by lia. rewrite H2, elem_of_app, elem_of_list_singleton. tauto.
            -- pose proof (nfalse_zset f' v Hx). rewrite app_length. cbn [length]. lia.
        + intros s' HI'. destruct s' as [[f' f2'] other]. destruct HI' as (L1 & L2 & Ho & H1 & H2 & Hc). split; [done|]. split; [done|]. split; [|done].
          intros j. rewrite Ho. rewrite <- (link_look arr arrI it j a b Ha Hb) by lia. split.
          * intros [Hj [(i & Hi & Hl)|Hl]]; (split; [done|]); [exists i|exists it]; (split; [|done]); apply elem_of_app; [by left|right]. apply elem_of_cons. by left.
          * intros [Hj (i & Hi & Hl)]. split; [done|]. apply elem_of_app in Hi as [Hi|Hi]; [left; by exists i|]. apply elem_of_list_singleton in Hi as ->. by right. }
    apply wp_ok in W as ([[f' f2'] other] & -> & H). exists f', f2', other. split; [done|]. exact H.
  Qed.

  Lemma markSeeds_ok seeds f f2 : zlen f = n -> zlen f2 = n -> (forall i, i ∈ seeds -> 0 <= i < n) ->
    exists f' f2', markSeeds n seeds f f2 = Ok (f', f2') /\ zlen f' = n /\ zlen f2' = n /\
      (forall j, f' @ j = Some true <-> f @ j = Some true \/ j ∈ seeds) /\ (forall j, f2' @ j = Some true <-> f2 @ j = Some true \/ j ∈ seeds).
  Proof using.
    intros Hf Hf2 Hs.
    assert (W : wp (markSeeds n seeds f f2) (fun '(f', f2') => zlen f' = n /\ zlen f2' = n /\
      (forall j, f' @ j = Some true <-> f @ j = Some true \/ j ∈ seeds) /\ (forall j, f2' @ j = Some true <-> f2 @ j = Some true \/ j ∈ seeds)) False).
    { unfold markSeeds. apply (wp_foldM _ (fun pre '(f', f2') => zlen f' = n /\ zlen f2' = n /\
        (forall j, f' @ j = Some true <-> f @ j = Some true \/ j ∈ pre) /\ (forall j, f2' @ j = Some true <-> f2 @ j = Some true \/ j ∈ pre))); [| |done].
      - split; [done|]. split; [done|]. split; intros j; rewrite elem_of_nil; tauto.
      - intros pre x post [f' f2'] El (L1 & L2 & H1 & H2). assert (Hx : 0 <= x < n) by (apply Hs; rewrite El; apply elem_of_app; right; apply elem_of_cons; by left).
        unfold ifthrow. replace (negb ((0 <=? x) && (x <? n))) with false by lia. rewrite (wr_ok f') by lia. cbn [bind]. rewrite (wr_ok f2') by lia. cbn [bind].
        cbn [wp]. split; [by rewrite zlen_zset|]. split; [by rewrite zlen_zset|].
        split; intros j; rewrite mark_elem by lia; [rewrite H1|rewrite H2]; rewrite elem_of_app, elem_of_list_singleton; tauto. }
    apply wp_ok in W as ([f' f2'] & -> & H). exists f', f2'. split; [done|]. exact H.
  Qed.
End Peel.
