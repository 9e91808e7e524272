From Coq Require Import QArith Qabs Lqa ZifyBool ZifyNat.
From Verif Require Import Base DataArray ArrLib RenumSpec RenumModel RenumProofs IndexSpec FillLib IndexModel IndexProofs2 IndexProofs4 PartModel PartProofs4 SkyModel SkyProofs TreeModel TreeModel2 TreeSpec TreeProofs TreeProofs2 TreeProofs3 TreeProofs4 TreeProofs5.
Local Open Scope Z_scope.

(** * The numbers given to the groups when a tuple may be in several of them *)
Section Numbers.
Context (n limit : Z) (N : Z -> Z -> Prop) (us : list Z) (ess : Z -> list Z).
Hypothesis Hn : 0 <= n.
Hypothesis Hes : forall i, 0 <= i < n -> NoDup (ess i) /\ forall e, e ∈ ess i <-> 0 <= e < n /\ N i e.
Hypothesis Hsort : StronglySorted Z.lt us.
Hypothesis Hus : forall j, j ∈ us <-> 0 <= j < n /\ ~ cut limit N us j.
Hypothesis Hor : forall j, 0 <= j < n -> j ∈ us \/ cut limit N us j.
Hypothesis Hsym : forall i j, 0 <= i < n -> 0 <= j < n -> N i j -> N j i.
Local Notation others := (others limit ess).
Local Notation group := (group limit ess).
Local Notation gs := (flat_map group us).

Lemma other_not_head h e : h ∈ us -> e ∈ others h -> e ∉ us.
Proof.
  intros Hh He Hu. pose proof (us_range n limit N us Hus h Hh) as Hr. apply (elem_oth n limit N us ess Hes Hus) in He as (He & Hl & Hne & HN); [|done].
  destruct (Z.lt_total h e) as [H|[H|H]]; [|lia|].
  - apply Hus in Hu as [_ Hu]. apply Hu. split; [done|]. exists h. done.
  - apply Hus in Hh as [_ Hh]. apply Hh. split; [lia|]. exists e. split; [done|]. split; [done|]. by apply Hsym.
Qed.
Lemma head_of g p : gs @ g = Some p -> exists h, h ∈ us /\ others h <> [] /\ p = h :: others h.
Proof. intros H. apply zlook_elem in H. by apply in_groups in H. Qed.
Lemma heads_unique g g' p p' h : gs @ g = Some p -> gs @ g' = Some p' -> p @ 0 = Some h -> p' @ 0 = Some h -> g = g'.
Proof.
  intros Hg Hg' Hp Hp'. destruct (Z.lt_total g g') as [H|[H|H]]; [|done|]; exfalso.
  - destruct (heads_sorted limit ess us Hsort g g' p p' H Hg Hg') as (a & b & Ha & Hb & ?). rewrite Hp in Ha. rewrite Hp' in Hb. injection Ha as <-. injection Hb as <-. lia.
  - destruct (heads_sorted limit ess us Hsort g' g p' p H Hg' Hg) as (a & b & Ha & Hb & ?). rewrite Hp' in Ha. rewrite Hp in Hb. injection Ha as <-. injection Hb as <-. lia.
Qed.
Context (arr arrI : list Z).
Hypothesis Hsky : skyline gs arr arrI.
Definition marks (G : Z) (pt : list Z) : Prop :=
  zlen pt = n /\ (forall g p h, 0 <= g < G -> gs @ g = Some p -> p @ 0 = Some h -> pt @ h = Some (- (g + 2))) /\
  forall x, 0 <= x < n -> (forall g p, 0 <= g < G -> gs @ g = Some p -> p @ 0 <> Some x) -> pt @ x = Some (-1).
Lemma marks_all : wp (forZ 0 (zlen arrI - 1) (fun i pt => let* a := rd arrI i in let* x := rd arr a in wr pt x (- (i + 2))) (replicate (Z.to_nat n) (-1))) (marks (zlen gs)) False.
Proof.
  assert (HL : zlen arrI = zlen gs + 1). { destruct Hsky as [_ [H _]]. rewrite zlen_fmap in H. done. }
  replace (zlen arrI - 1) with (zlen gs) by lia.
  apply (wp_forZ marks).
  - apply zlen_nonneg.
  - split; [rewrite zlen_replicate; lia|]. split; [lia|]. intros x Hx _. apply zlook_replicate. lia.
  - intros i pt Hi (Hl & Hm & Hu). destruct (gs @ i) as [p|] eqn:Ep; [|apply zlook_None in Ep; lia].
    destruct (sky_pack gs arr arrI i p Hsky Ep) as (a & b & Ha & Hb & Ha0 & Hab & Hbl & Hp).
    destruct (head_of i p Ep) as (h & Hh & Ho & Epp). pose proof (us_range n limit N us Hus h Hh) as Hr. assert (Hh0 : p @ 0 = Some h) by (rewrite Epp; done). rewrite (rd_ok _ _ _ Ha). cbn [bind].
    assert (Hah : arr @ a = Some h).
    { rewrite Hp in Hh0. destruct (decide (a = b)) as [->|]; [rewrite sub_empty, zlook_nil in Hh0 by lia; done|]. rewrite zlook_sub in Hh0 by lia. rewrite Z.add_0_r in Hh0. done. }
    rewrite (rd_ok _ _ _ Hah). cbn [bind]. rewrite wr_ok by lia. cbn [wp]. split; [rewrite zlen_zset; done|]. split.
    + intros g q h' Hg Hq Hh'. rewrite zlook_zset by lia. destruct (decide (g = i)) as [->|Hne].
      * assert (q = p) as -> by congruence. assert (h' = h) as -> by congruence. rewrite Z.eqb_refl. done.
      * replace (h' =? h) with false; [apply (Hm g q); [lia|done..]|]. symmetry. apply Z.eqb_neq. intros ->. apply Hne. by apply (heads_unique g i q p h).
    + intros x Hx Hno. rewrite zlook_zset by lia. replace (x =? h) with false; [apply Hu; [done|]; intros g q Hg; apply Hno; lia|].
      symmetry. apply Z.eqb_neq. intros ->. apply (Hno i p); [lia|done..].
  - done.
Qed.
(** State of the numbering when the elements below [i] have been treated: [c] is the number of heads below [i]; the last group met gives its number. *)
Definition last_head (i x h : Z) : Prop := h ∈ us /\ h < i /\ x ∈ others h /\ forall h', h' ∈ us -> h' < i -> x ∈ others h' -> h' <= h.
Definition ninv (i : Z) (pt : list Z) (c : Z) : Prop :=
  zlen pt = n /\ (exists pre suf, us = pre ++ suf /\ zlen pre = c /\ (forall x, x ∈ pre -> x < i) /\ forall x, x ∈ suf -> i <= x) /\
  (forall x, x ∈ us -> x < i -> exists v, pt @ x = Some v /\ us @ v = Some x) /\
  (forall x, x ∈ us -> i <= x -> (forall g p, gs @ g = Some p -> p @ 0 = Some x -> pt @ x = Some (- (g + 2))) /\ (others x = [] -> pt @ x = Some (-1))) /\
  (forall x, 0 <= x < n -> x ∉ us -> (exists h, h ∈ us /\ h < i /\ x ∈ others h) -> exists v h, pt @ x = Some v /\ us @ v = Some h /\ last_head i x h).
Lemma numbers_ok : exists r, ConvertIndexArrayToO2N n arr arrI = Ok (Some <$> r, zlen us) /\ zlen r = n /\
  (forall x, x ∈ us -> exists v, r @ x = Some v /\ us @ v = Some x) /\
  (forall x, 0 <= x < n -> x ∉ us -> exists v h, r @ x = Some v /\ us @ v = Some h /\ last_head n x h).
Proof.
  unfold ConvertIndexArrayToO2N. rewrite alloc1 by done. cbn [bind]. unfold malloc. rewrite fmap_replicate.
  pose proof marks_all as W. destruct (forZ 0 (zlen arrI - 1) _ _) as [pt0| | |]; cbn in W; try done. cbn [bind]. destruct W as (Hl0 & Hm0 & Hu0).
  match goal with |- context [forZ 0 n ?b (pt0, 0)] => assert (W : wp (forZ 0 n b (pt0, 0)) (fun '(pt, c) => ninv n pt c) False) end.
  { apply (wp_forZ (fun i '(pt, c) => ninv i pt c)).
    - done.
    - split; [done|]. assert (Hpos : forall x, x ∈ us -> 0 <= x) by (intros x Hx; apply (us_range n limit N us Hus) in Hx; lia). split; [|split; [|split]].
      + exists [], us. split; [done|]. split; [done|]. split; [set_solver|done].
      + intros x Hx Hx0. specialize (Hpos x Hx). lia.
      + intros x Hx _. pose proof (us_range n limit N us Hus x Hx) as Hr. split.
        * intros g p Hg Hp. eapply Hm0; eauto. by apply zlook_Some_lt in Hg.
        * intros Ho. apply Hu0; [done|]. intros g p _ Hg Hp. destruct (head_of g p Hg) as (h & Hh & Hne & ->). cbn in Hp. injection Hp as ->. done.
      + intros x Hx Hxu (h & Hh & Hlt & _). specialize (Hpos h Hh). lia.
    - intros i [pt c] Hi (Hl & (pre & suf & Eus & Hpre & Hlo & Hhi) & Hdone & Htodo & Hcov).
      assert (Hlast : forall x, last_head i x i -> False) by (intros x (_ & ? & _); lia).
      destruct (Hor i ltac:(lia)) as [Hiu|(Hlim & h & Hh & Hhi' & HNh)].
      + (* a head, or a tuple in no group *)
        assert (exists suf', suf = i :: suf' /\ forall x, x ∈ suf' -> i + 1 <= x) as (suf' & -> & Hsuf').
        { rewrite Eus in Hiu, Hsort. apply elem_of_app in Hiu as [Hiu|Hiu]; [apply Hlo in Hiu; lia|]. destruct suf as [|s suf']; [set_solver|]. exists suf'.
          assert (HS : StronglySorted Z.lt (s :: suf')). { clear -Hsort. induction pre as [|p pre IH]; [done|]. cbn in Hsort. apply StronglySorted_inv in Hsort as [? _]. auto. }
          apply StronglySorted_inv in HS as [_ HS]. rewrite Forall_forall in HS. assert (i = s) as ->. { apply elem_of_cons in Hiu as [?|Hiu]; [done|]. specialize (HS i Hiu). specialize (Hhi s ltac:(set_solver)). lia. }
          split; [done|]. intros x Hx. specialize (HS x Hx). lia. }
        assert (Hc : us @ c = Some i). { rewrite Eus, zlook_app_r by lia. rewrite Hpre, Z.sub_diag. done. }
        assert (Hsplit : us = (pre ++ [i]) ++ suf' /\ zlen (pre ++ [i]) = c + 1 /\ (forall x, x ∈ pre ++ [i] -> x < i + 1) /\ forall x, x ∈ suf' -> i + 1 <= x).
        { split; [by rewrite <- app_assoc|]. split; [rewrite zlen_app, zlen_cons, zlen_nil; lia|]. split; [|done]. intros x Hx. apply elem_of_app in Hx as [Hx|Hx%elem_of_list_singleton]; [apply Hlo in Hx; lia|lia]. }
        destruct (Htodo i Hiu ltac:(lia)) as [Ht1 Ht2].
        assert (STEP : forall pt', zlen pt' = n -> (forall x, x ∈ i :: others i -> pt' @ x = Some c) -> (forall x, x ∉ i :: others i -> pt' @ x = pt @ x) -> ninv (i + 1) pt' (c + 1)).
        { intros pt' Hl' Hin Hout. split; [done|]. split; [exists (pre ++ [i]), suf'; done|]. split; [|split].
          - intros x Hx Hxi. destruct (decide (x = i)) as [->|Hne]; [exists c; split; [apply Hin; set_solver|done]|]. rewrite Hout; [apply Hdone; [done|lia]|].
            intros [?|H]%elem_of_cons; [done|]. by apply (other_not_head i x) in H.
          - intros x Hx Hxi. rewrite Hout; [apply Htodo; [done|lia]|]. intros [?|H]%elem_of_cons; [lia|]. by apply (other_not_head i x) in H.
          - intros x Hx Hxu (h & Hh & Hhi' & Hxh). destruct (decide (x ∈ others i)) as [Hxi|Hxi].
            + exists c, i. split; [apply Hin; set_solver|]. split; [done|]. split; [done|]. split; [lia|]. split; [done|]. intros h' _ ? _. lia.
            + rewrite Hout; [|intros [->|H]%elem_of_cons; done]. destruct (Hcov x Hx Hxu) as (v & h0 & Hv & Hv' & (L1 & L2 & L3 & L4)).
              { exists h. split; [done|]. split; [|done]. destruct (decide (h = i)) as [->|]; [done|lia]. }
              exists v, h0. split; [done|]. split; [done|]. split; [done|]. split; [lia|]. split; [done|]. intros h' Hh' Hlt Hx'. apply L4; [done| |done]. destruct (decide (h' = i)) as [->|]; [done|lia]. }
        destruct (decide (others i = [])) as [Ho|Ho].
        * rewrite (rd_ok _ _ _ (Ht2 Ho)). cbn [bind]. cbn [Z.ltb Z.eqb Z.compare Pos.eqb]. rewrite wr_ok by lia. cbn [bind wp]. apply STEP; [by rewrite zlen_zset| |].
          -- rewrite Ho. intros x ->%elem_of_list_singleton. rewrite zlook_zset, Z.eqb_refl by lia. done.
          -- rewrite Ho. intros x Hx. rewrite zlook_zset by lia. destruct (Z.eqb_spec x i) as [->|]; [set_solver|done].
        * assert (Hg : (i :: others i) ∈ gs). { apply (in_groups limit us ess). exists i. done. }
          apply elem_of_zlook in Hg as [g Hg]. pose proof (zlook_Some_lt _ _ _ Hg). rewrite (rd_ok _ _ _ (Ht1 g _ Hg eq_refl)). cbn [bind].
          replace (- (g + 2) <? 0) with true by lia. replace (- (g + 2) =? -1) with false by lia. cbv zeta. replace (- (- (g + 2) + 2)) with g by lia.
          destruct (sky_pack gs arr arrI g _ Hsky Hg) as (a & b & Hga & Hgb & Ha0 & Hab & Hbl & Hpe). rewrite (rd_ok _ _ _ Hga). cbn [bind]. rewrite (rd_ok _ _ _ Hgb). cbn [bind].
          pose proof (group_wp [] n ltac:(intros ? ? ? ? ? HN; by rewrite zlook_nil in HN) ltac:(intros ? HN; by apply elem_of_nil in HN) arr [] a b _ pt c Ha0 Hab Hbl Hpe Hl) as GW.
          destruct (forZ a b _ pt) as [pt'| | |]; cbn in GW; try done.
          -- cbn [bind wp]. destruct GW as (G1 & G2 & G3). apply STEP; [done| |done]. intros x Hx. by apply G2.
          -- exfalso. destruct GW as (x & Hx & Hnx). apply Hnx. apply elem_of_cons in Hx as [->|Hx]; [lia|]. apply (elem_oth n limit N us ess Hes Hus) in Hx; [tauto|done].
      + (* already numbered *)
        assert (Hiu : i ∉ us). { intros Hu. apply Hus in Hu as [_ Hu]. apply Hu. split; [done|]. exists h. done. }
        assert (Hio : i ∈ others h). { apply (elem_oth n limit N us ess Hes Hus); [done|]. split; [lia|]. split; [done|]. split; [lia|done]. }
        destruct (Hcov i ltac:(lia) Hiu) as (v & h0 & Hv & Hv' & _); [exists h; done|]. rewrite (rd_ok _ _ _ Hv). cbn [bind]. pose proof (zlook_Some_lt _ _ _ Hv').
        replace (v <? 0) with false by lia. cbn [wp].
        assert (Hne : forall x, x ∈ us -> x < i + 1 -> x < i). { intros x Hx ?. destruct (decide (x = i)) as [->|]; [done|lia]. }
        split; [done|]. split; [|split; [|split]].
        * exists pre, suf. split; [done|]. split; [done|]. split; [intros x Hx; apply Hlo in Hx; lia|]. intros x Hx. pose proof (Hhi x Hx). destruct (decide (x = i)) as [->|]; [|lia]. exfalso. apply Hiu. rewrite Eus. set_solver.
        * intros x Hx Hxi. apply Hdone; [done|]. auto.
        * intros x Hx Hxi. apply Htodo; [done|lia].
        * intros x Hx Hxu (h1 & Hh1 & Hlt1 & Hxh1). destruct (Hcov x Hx Hxu) as (v1 & h2 & Hv1 & Hv2 & (L1 & L2 & L3 & L4)); [exists h1; auto|]. exists v1, h2. split; [done|]. split; [done|].
          split; [done|]. split; [lia|]. split; [done|]. intros h' ? ? ?. apply L4; auto.
    - intros [pt c] H. done. }
  destruct (forZ 0 n _ (pt0, 0)) as [[r c]| | |]; cbn in W; try done. cbn [bind]. destruct W as (Hl & (pre & suf & Eus & Hpre & Hlo & Hhi) & Hdone & _ & Hcov).
  assert (suf = []) as ->. { destruct suf as [|s suf]; [done|]. exfalso. specialize (Hhi s ltac:(set_solver)). assert (Hs : s ∈ us) by (rewrite Eus; set_solver). apply (us_range n limit N us Hus) in Hs. lia. }
  rewrite app_nil_r in Eus. subst pre. exists r. rewrite Hpre. split; [done|]. split; [done|]. split.
  - intros x Hx. apply Hdone; [done|]. apply (us_range n limit N us Hus) in Hx. lia.
  - intros x Hx Hxu. apply Hcov; [done|done|]. destruct (Hor x Hx) as [?|(Hlim & h & Hh & Hhx & HN)]; [done|]. exists h. split; [done|]. split; [lia|]. apply (elem_oth n limit N us ess Hes Hus); [done|]. split; [done|]. split; [done|]. split; [lia|done].
Qed.
End Numbers.
