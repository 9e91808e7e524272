(** rearrangeFamilies and histories of edits. *)
From stdpp Require Import strings.
From Coq Require Import ZifyBool ZifyNat.
From Verif Require Import Base DataArray StdModel StdProofs ArrLib RenumModel RenumSpec RenumProofs PermProofs SearchModel SearchSpec SearchProofs SetsModel SetsProofs FgModel FgSpec FgProofs FgProofs2 FgProofs3 FgProofs4 FgProofs5 FgProofs6 FgProofs7.

Lemma sget_filter (F : list (string * Z)) (P : string * Z -> Prop) `{!forall q, Decision (P q)} k x : ordered F -> sget k (filter P F) = Some x <-> sget k F = Some x /\ P (k, x).
Proof. intros Ho. rewrite <- !elem_sget by (try apply ordered_filter; done). rewrite elem_of_list_filter. tauto. Qed.

Theorem removeFamiliesReferedByNoGroups_ok m : valid m ->
  let m' := removeFamiliesReferedByNoGroups m in same_content m m' /\ same_levels m m' /\ valid m' /\ fm_grps m' = fm_grps m /\ fm_levs m' = fm_levs m /\
  forall k x, (k, x) ∈ fm_fams m' <-> (k, x) ∈ fm_fams m /\ (k = zeroName \/ exists g f, (g, f) ∈ fm_grps m /\ k ∈ f).
Proof.
  intros Hv. pose proof Hv as (HF & HG & _). cbn zeta. unfold removeFamiliesReferedByNoGroups. set (F' := filter _ _). assert (HF' : ordered F') by (by apply ordered_filter).
  assert (Hget : forall k x, (k, x) ∈ F' <-> (k, x) ∈ fm_fams m /\ (k = zeroName \/ exists g f, (g, f) ∈ fm_grps m /\ k ∈ f)).
  { intros k x. unfold F'. rewrite elem_of_list_filter. cbn [fst]. rewrite Exists_exists. split.
    - intros [[?|([g f] & ? & ?)] ?]; [tauto|]. split; [done|]. right. eauto.
    - intros [? [?|(g & f & ? & ?)]]; [tauto|]. split; [|done]. right. exists (g, f). done. }
  pose proof (valid_maps m F' (fm_grps m) Hv HF' HG) as Hv'. split; [|split; [done|split; [done|split; [done|split; [done|exact Hget]]]]].
  intros l g e. rewrite member_maps, member_iff by done. split; intros (f & a & x & H1 & H2 & H3 & (k & Hk & Hx)); exists f, a, x; do 3 (split; [done|]); exists k; (split; [done|]).
  - apply elem_sget in Hx; [|done]. apply Hget in Hx as [? _]. by apply elem_sget.
  - apply elem_sget; [done|]. apply Hget. split; [by apply elem_sget|]. right. exists g, f. split; [by apply elem_sget|done].
Qed.

Theorem rearrangeFamilies_wp m : valid m -> wp (rearrangeFamilies m)
  (fun m' => same_content m m' /\ same_levels m m' /\ (forall l x, in_field m' l x -> x = 0 \/ exists k, (k, x) ∈ fm_fams m') /\
    (forall k x, (k, x) ∈ fm_fams m' -> (k, x) ∈ fm_fams m /\ (k = zeroName \/ exists g f, (g, f) ∈ fm_grps m /\ k ∈ f) /\ exists l, in_field m' l x) /\
    ((exists l x, in_field m l x) -> forall g, has_group m' g <-> has_group m g) /\
    (coherent m -> no_repeat m -> coherent m' /\ no_repeat m'))
  (exists g f n, (g, f) ∈ fm_grps m /\ n ∈ f /\ (n = zeroName \/ (n, 0) ∈ fm_fams m)).
Proof.
  intros Hv. pose proof Hv as (HF & HG & Hn & Hnb & Hlen). unfold rearrangeFamilies.
  unfold zeroInGroup. destruct (bool_decide_reflect (Exists (fun p : string * list string => zeroName ∈ p.2) (fm_grps m))) as [Hz|Hz]; cbn [ifthrow wp].
  { apply Exists_exists in Hz as ([g f] & H1 & H2). exists g, f, zeroName. tauto. }
  destruct (removeFamiliesReferedByNoGroups_ok m Hv) as (A1 & A2 & A3 & A4 & A5 & A6). set (m1 := removeFamiliesReferedByNoGroups m) in *.
  destruct (bool_decide_reflect (Exists (fun p : string * Z => p.2 = 0 /\ getGroupsOnFamily p.1 m1 <> []) (fm_fams m1))) as [Hy|Hy]; cbn [ifthrow wp].
  { apply Exists_exists in Hy as ([n x] & H1 & H2 & H3). cbn [fst snd] in *. subst x. destruct (getGroupsOnFamily n m1) as [|g gs] eqn:Eg; [done|].
    assert (Hg : g ∈ getGroupsOnFamily n m1) by (rewrite Eg; left). apply groupsOn_iff in Hg as (f & Hf & Hnf); [|by rewrite A4]. rewrite A4 in Hf. exists g, f, n. split; [by apply elem_sget|]. split; [done|]. right. by apply A6 in H1 as [? _]. }
  set (h := fun x => if smem x (set_of ((fm_fams m1).*2)) then x else 0).
  assert (Hh : forall x, (h x = x /\ exists k, (k, x) ∈ fm_fams m1) \/ (h x = 0 /\ forall k, (k, x) ∉ fm_fams m1)).
  { intros x. unfold h. destruct (smem x (set_of ((fm_fams m1).*2))) eqn:E.
    - left. split; [done|]. apply smem_spec in E. rewrite elem_of_set_of in E. apply elem_of_list_fmap in E as ([k y] & -> & Hk). eauto.
    - right. split; [done|]. intros k Hk. assert (smem x (set_of ((fm_fams m1).*2)) = true); [|congruence]. apply smem_spec. rewrite elem_of_set_of. apply elem_of_list_fmap. by exists (k, x). }
  assert (El : (fun v => match lv_fam v with None => v | Some a => LV (lv_id v) (lv_nb v) (Some (h <$> a)) end) <$> fm_levs m1 = mapLevs h (fm_levs m1)).
  { unfold mapLevs. apply list_fmap_ext. intros _ [i nb fam] _. cbn [lv_fam lv_id lv_nb]. by destruct fam. }
  cbn zeta. rewrite El. clear El. set (m2 := FM (fm_fams m1) (fm_grps m1) (mapLevs h (fm_levs m1))). pose proof A3 as (HF1 & HG1 & _).
  assert (Hv2 : valid m2) by (by apply valid_map).
  assert (Hreg : forall g f n x, sget g (fm_grps m1) = Some f -> n ∈ f -> sget n (fm_fams m1) = Some x -> x <> 0).
  { intros g f n x H1 H2 H3 ->. apply Hy, Exists_exists. exists (n, 0). split; [by apply elem_sget|]. split; [done|]. cbn [fst]. intros E. assert (Hg : g ∈ getGroupsOnFamily n m1) by (apply groupsOn_iff; eauto). rewrite E in Hg. by apply elem_of_nil in Hg. }
  assert (B1 : same_content m1 m2).
  { intros l g e. unfold m2. rewrite member_map, member_iff by done. split; intros (f & a & x & H1 & H2 & H3 & (k & Hk & Hx)); exists f, a, x; do 3 (split; [done|]); exists k; (split; [done|]).
    - destruct (Hh x) as [[E _]|[E _]]; rewrite E in Hx; [done|]. by apply (Hreg g f k 0) in Hx.
    - destruct (Hh x) as [[E _]|[_ E]]; [by rewrite E|]. apply elem_sget in Hx; [|done]. by apply E in Hx. }
  destruct (removeOrphanFamilies_ok m2 Hv2) as (ret & m' & -> & C1 & C2 & C3 & C4 & C5 & C6 & C7 & C8 & C9 & C10). cbn [bind wp].
  assert (Hf2 : forall l x, in_field m2 l x <-> exists y, in_field m l y /\ x = h y).
  { intros l x. unfold m2. rewrite in_field_map by done. unfold in_field at 1. rewrite A5. done. }
  assert (Hff : forall l x, in_field m' l x -> x = 0 \/ exists k, (k, x) ∈ fm_fams m').
  { intros l x Hx. apply C6 in Hx as Hx2. apply Hf2 in Hx2 as (y & Hy1 & ->). destruct (Hh y) as [[E [k Hk]]|[E _]]; [|by left]. rewrite E in *. right. exists k. apply C4. split; [done|]. exists l. by apply C6. }
  assert (Hfs : forall k x, (k, x) ∈ fm_fams m' -> (k, x) ∈ fm_fams m /\ (k = zeroName \/ exists g f, (g, f) ∈ fm_grps m /\ k ∈ f) /\ exists l, in_field m' l x).
  { intros k x [Hk [l Hl]]%C4. apply A6 in Hk as [? ?]. split; [done|]. split; [done|]. exists l. by apply C6. }
  assert (Hgr : forall g f, (g, f) ∈ fm_grps m' -> exists f0, (g, f0) ∈ fm_grps m /\ forall n, n ∈ f -> n ∈ f0).
  { intros g f Hg. apply C10 in Hg as (f0 & H1 & H2). exists f0. split; [|done]. change (fm_grps m2) with (fm_grps m1) in H1. by rewrite A4 in H1. }
  split; [|split; [|split; [|split; [|split]]]].
  - intros l g e. rewrite (C1 l g e), (B1 l g e). apply A1.
  - intros l nb. rewrite (A2 l nb), (levels_map h m1 (fm_fams m1) (fm_grps m1) l nb). apply C2.
  - done.
  - done.
  - intros (l & x & Hx) g. rewrite C7; [|exists l, (h x); apply Hf2; eauto]. unfold has_group. change (fm_grps m2) with (fm_grps m1). by rewrite A4.
  - intros (_ & Hc & Hd & Hap & Hb & Hp) Hnr.
    assert (Hnr2 : no_repeat m2). { intros g f Hg. change (fm_grps m2) with (fm_grps m1) in Hg. rewrite A4 in Hg. by apply (Hnr g). }
    split; [|by apply C9]. split; [done|]. split; [|split; [|split; [|split]]].
    + apply C8; [|done]. intros g f n Hg Hin. change (fm_grps m2) with (fm_grps m1) in Hg. rewrite A4 in Hg. destruct (Hc g f n Hg Hin) as [x Hx]. exists x. apply A6. split; [done|]. right. eauto.
    + intros n n' x H1 H2. apply Hfs in H1 as [H1 _]. apply Hfs in H2 as [H2 _]. by apply (Hd n n' x).
    + intros n x (g & f & H1 & H2 & H3). apply Hgr in H1 as (f0 & H1 & Hs). apply Hfs in H3 as [H3 _]. destruct (Hap n x) as [H0 H4]. { exists g, f0. auto. }
      split; [done|]. assert (Hin : forall l, in_field m' l x -> in_field m l x).
      { intros l Hl. apply C6, Hf2 in Hl as (y & Hy1 & E). destruct (Hh y) as [[E' _]|[E' _]]; congruence. }
      intros l l' Hl Hl'. apply H4; by apply Hin.
    + intros l x Hx. destruct (Hff l x Hx) as [?|[k Hk]]; [by left|]. right. exists k, x. split; [done|lia].
    + intros l nb Hl. apply (Hp l). apply A2, (levels_map h m1 (fm_fams m1) (fm_grps m1) l nb), C2, Hl.
Qed.

Definition inv (m : fmesh) (c : content) : Prop := coherent m /\ no_repeat m /\ forall l g e, member m l g e <-> c l g e.
Lemma doEdit_ok m c ed : inv m c -> wp (doEdit m ed) (fun m' => inv m' (after c ed) /\ same_levels m m') True.
Proof.
  intros (Hco & Hnr & Hm). pose proof Hco as (Hv & Hc & Hd & Hap & _). pose proof Hv as (HFo & HGo & _). unfold inv. destruct ed as [l g ids|g|o n|l g|o n|]; cbn [doEdit after].
  - eapply wp_mono; [apply (addGroup_wp m l g ids Hco)| |done]. intros m' (_ & (A1 & A2 & A3 & A4) & A5 & A6). split; [|done]. split; [done|]. split; [by apply A6|].
    intros l' g' e. destruct (decide (l' = l /\ g' = g)) as [[-> ->]|Hne].
    + rewrite A1. tauto.
    + rewrite A2, Hm; [tauto|]. destruct (decide (l' = l)); [right|left]; [|done]. intros ->. tauto.
  - destruct (sget g (fm_grps m)) as [f|] eqn:E.
    + destruct (removeGroup_ok m g Hv) as (m' & -> & A1 & A2 & A3 & A4 & A5); [apply has_group_iff; eauto|]. cbn [wp]. split; [|done]. split; [by apply A4|]. split; [by apply A5|].
      intros l' g' e. rewrite A1, Hm. tauto.
    + unfold removeGroup. by rewrite E.
  - destruct (decide (is_Some (sget o (fm_grps m)) /\ sget n (fm_grps m) = None)) as [[[f Ho] Hn]|Hno].
    + destruct (changeGroupName_ok m o n Hv) as (m' & -> & A1 & A2 & A3 & A4 & A5); [apply has_group_iff; eauto|intros [? ?]%has_group_iff; [congruence|done]|]. cbn [wp].
      split; [|done]. split; [by apply A4|]. split; [by apply A5|]. intros l' g' e. rewrite A1, !Hm. tauto.
    + unfold changeGroupName. destruct (sget o (fm_grps m)) eqn:E1; [|done]. destruct (sget n (fm_grps m)) eqn:E2; [done|]. exfalso. apply Hno. split; [eauto|done].
  - destruct (sget g (fm_grps m)) as [f|] eqn:E; [|unfold removeGroupAtLevel, getFamiliesOnGroup; by rewrite E].
    destruct (decide (is_Some (findLev l m) \/ l = 1)) as [Hl|Hl].
    + destruct (removeGroupAtLevel_ok m l g Hv Hc) as (m' & -> & A1 & A2 & A3 & A4 & A5 & A6).
      { apply has_group_iff; eauto. } { destruct Hl as [[v Hl]|?]; [|by right]. left. exists (lv_nb v). apply has_level_iff; eauto. }
      cbn [wp]. split; [|done]. split; [by apply A5|]. split; [by apply A6|]. intros l' g' e. destruct (decide (g' = g)) as [->|Hg]; [|rewrite A2, Hm by done; tauto].
      rewrite A1, Hm. split.
      * intros [H1 H2]. split; [|done]. intros [-> _]. apply Hm in H1. apply member_iff in H1 as (f1 & a & x & B1 & B2 & B3 & B4); [|done]. apply H2. exists x. split; [apply id_at_iff; eauto|].
        apply in_field_iff; [done|]. exists a. split; [done|]. by apply zlook_elem in B3.
      * intros [H1 H2]. split; [done|]. intros (x & Hx & Hf). apply H1. split; [|done]. apply Hm in H2. apply member_iff in H2 as (f1 & a & y & B1 & B2 & B3 & (n & B4 & B5)); [|done].
        apply id_at_iff in Hx as (a' & Ha' & Hx); [|done]. assert (y = x) by congruence. subst y. destruct (Hap n x) as [_ H3]. { exists g, f1. split; [by apply elem_sget|]. split; [done|]. by apply elem_sget. }
        apply H3; [|done]. apply in_field_iff; [done|]. exists a. split; [done|]. by apply zlook_elem in B3.
    + unfold removeGroupAtLevel, getFamiliesIdsOnGroup, getFamiliesOnGroup. rewrite E. cbn [bind]. destruct (familiesIds_ok m f) as (ids & -> & _).
      { intros n Hn. apply elem_sget in E; [|done]. destruct (Hc g f n E Hn) as [x Hx]. exists x. by apply elem_sget. }
      cbn [bind]. unfold fieldAt. destruct (findLev l m) eqn:E'; [exfalso; apply Hl; eauto|]. destruct (Z.eqb_spec l 1); [tauto|]. done.
  - destruct (decide (is_Some (sget o (fm_fams m)) /\ sget n (fm_fams m) = None)) as [[[f Ho] Hn]|Hno].
    + destruct (changeFamilyName_ok m o n Hv Hc Hnr) as (m' & -> & A1 & A2 & A3 & A4 & A5 & A6); [exists f; by apply elem_sget|intros id Hid; apply elem_sget in Hid; [congruence|done]|]. cbn [wp].
      split; [|done]. split; [by apply A5|]. split; [done|]. intros l' g' e. by rewrite (A1 l' g' e).
    + unfold changeFamilyName. destruct (sget o (fm_fams m)) eqn:E1; [|done]. destruct (sget n (fm_fams m)) eqn:E2; [done|]. exfalso. apply Hno. split; [eauto|done].
  - eapply wp_mono; [apply (rearrangeFamilies_wp m Hv)| |done]. intros m' (A1 & A2 & _ & _ & _ & A3). split; [|done]. destruct (A3 Hco Hnr) as [? ?]. split; [done|]. split; [done|].
    intros l' g' e. by rewrite (A1 l' g' e).
Qed.
Lemma same_levels_trans m1 m2 m3 : same_levels m1 m2 -> same_levels m2 m3 -> same_levels m1 m3.
Proof. intros H1 H2 l nb. by rewrite (H1 l nb). Qed.
Theorem history_ok m0 hist : blank m0 -> wp (foldM doEdit hist m0)
  (fun m => (forall l g e, member m l g e <-> foldl after no_content hist l g e) /\ coherent m /\ no_repeat m /\ same_levels m0 m) True.
Proof.
  intros (Hv & HF & HG & H0 & Hp).
  apply (wp_foldM doEdit (fun pre m => inv m (foldl after no_content pre) /\ same_levels m0 m)).
  - split; [|done]. cbn [foldl]. split; [|split].
    + split; [done|]. split; [intros g f n Hg; rewrite HG in Hg; by apply elem_of_nil in Hg|]. split; [intros n n' x Hx; rewrite HF in Hx; by apply elem_of_nil in Hx|].
      split; [intros n x (g & f & Hg & _); rewrite HG in Hg; by apply elem_of_nil in Hg|]. split; [|done]. intros l x Hx. left. by apply (H0 l).
    + intros g f Hg. rewrite HG in Hg. by apply elem_of_nil in Hg.
    + intros l g e. split; [|done]. intros (f & n & id & v & a & Hg & _). rewrite HG in Hg. by apply elem_of_nil in Hg.
  - intros pre x post m _ [Hi Hs]. eapply wp_mono; [by apply doEdit_ok| |done]. intros m' [Hi' Hs']. rewrite foldl_app. split; [done|]. by eapply same_levels_trans.
  - intros m [(A & B & C) D]. done.
Qed.

(** *** Reading: the other outcomes *)
Lemma groupArr_unknown m l g : valid m -> ~ has_group m g -> getGroupArr l g m = Throw.
Proof.
  intros Hv Hg. unfold getGroupArr, getGroupsArr, getFamiliesOnGroups, getFamiliesOnGroup. cbn [foldM]. destruct (sget g (fm_grps m)) eqn:E; [|done].
  exfalso. apply Hg, has_group_iff; eauto.
Qed.
Lemma groupArr_eq m l g fams : valid m -> (g, fams) ∈ fm_grps m -> getGroupArr l g m = getFamiliesArr l (sset fams) m.
Proof.
  intros (_ & HG & _) Hg. apply elem_sget in Hg; [|done]. unfold getGroupArr, getGroupsArr, getFamiliesOnGroups, getFamiliesOnGroup. cbn [foldM]. rewrite Hg. done.
Qed.
Lemma groupArr_dangling m l g fams n : valid m -> (g, fams) ∈ fm_grps m -> n ∈ fams -> (forall id, (n, id) ∉ fm_fams m) -> getGroupArr l g m = Throw.
Proof.
  intros Hv Hg Hn Hno. rewrite (groupArr_eq m l g fams Hv Hg). unfold getFamiliesArr. rewrite (familiesIds_throw m (sset fams) n); [done|by apply elem_sset|].
  destruct (sget n (fm_fams m)) as [x|] eqn:E; [|done]. apply elem_sget in E; [|by destruct Hv]. by apply Hno in E.
Qed.
Lemma groupArr_nolevel m l g : valid m -> closed m -> has_group m g -> (forall nb, ~ has_level m l nb) ->
  getGroupArr l g m = if l =? 1 then Ok [] else Throw.
Proof.
  intros Hv Hc [fams Hg] Hl. rewrite (groupArr_eq m l g fams Hv Hg). unfold getFamiliesArr. pose proof Hv as (HF & HG & _).
  destruct (familiesIds_ok m (sset fams)) as (ids & -> & _). { intros n Hn. rewrite elem_sset in Hn. destruct (Hc g fams n Hg Hn) as [x Hx]. exists x. by apply elem_sget. }
  cbn [bind]. destruct (findLev l m) as [v|] eqn:E; [|done]. exfalso. apply (Hl (lv_nb v)). apply has_level_iff; eauto.
Qed.
Lemma groupArr_nofield m l g v : valid m -> closed m -> has_group m g -> v ∈ fm_levs m -> lv_id v = l -> lv_fam v = None ->
  getGroupArr l g m = if l =? 1 then Ok [] else UB.
Proof.
  intros Hv Hc [fams Hg] Hl Hi Hf. rewrite (groupArr_eq m l g fams Hv Hg). unfold getFamiliesArr. pose proof Hv as (HF & HG & Hn & _).
  destruct (familiesIds_ok m (sset fams)) as (ids & -> & _). { intros n Hnn. rewrite elem_sset in Hnn. destruct (Hc g fams n Hg Hnn) as [x Hx]. exists x. by apply elem_sget. }
  cbn [bind]. rewrite (proj2 (findLev_Some l m v Hn) (conj Hl Hi)). by rewrite Hf.
Qed.
Lemma groupArr_refused m l g : valid m ->
  (~ has_group m g -> getGroupArr l g m = Throw) /\
  (forall fams n, (g, fams) ∈ fm_grps m -> n ∈ fams -> (forall id, (n, id) ∉ fm_fams m) -> getGroupArr l g m = Throw) /\
  (closed m -> has_group m g -> (forall nb, ~ has_level m l nb) -> getGroupArr l g m = if l =? 1 then Ok [] else Throw).
Proof.
  intros Hv. split; [by apply groupArr_unknown|]. split; [|by apply groupArr_nolevel]. intros fams n. by apply groupArr_dangling.
Qed.
Lemma groupsArr_all m l grps : valid m -> closed m -> (forall g, g ∈ grps -> has_group m g) -> (exists v a, v ∈ fm_levs m /\ lv_id v = l /\ lv_fam v = Some a) ->
  exists r, getGroupsArr l grps m = Ok r /\ enumerates (fun e => exists g, g ∈ grps /\ member m l g e) r.
Proof.
  intros Hv Hc Hg (v & a & H1 & H2 & H3). apply (groupsArr_ok m l grps a); try done. pose proof Hv as (_ & _ & Hn & _). apply fieldOf_iff; [done|]. eauto.
Qed.
Lemma addGroup_both m l g ids : coherent m ->
  (acceptable m l g ids /\ exists m', addGroup l (Some (g, vec ids)) m = Ok m' /\ group_added m l g ids m' /\ coherent m') \/
  (~ acceptable m l g ids /\ addGroup l (Some (g, vec ids)) m = Throw).
Proof.
  intros Hc. pose proof (addGroup_wp m l g ids Hc) as W. destruct (addGroup l (Some (g, vec ids)) m) as [m'| | |]; cbn [wp] in W; try done.
  - left. destruct W as (? & ? & ? & _). eauto.
  - by right.
Qed.
Lemma createGroupOnAll_refused m l g : valid m -> has_group m g \/ (forall nb, ~ has_level m l nb) \/ (forall v, v ∈ fm_levs m -> lv_id v = l -> lv_fam v = None) -> createGroupOnAll l g m = Throw.
Proof.
  intros Hv H. unfold createGroupOnAll. destruct (findLev l m) as [v|] eqn:Ev; [|done]. destruct H as [H|[H|H]].
  - apply has_group_iff in H as [f ->]; done.
  - exfalso. eapply H. apply has_level_iff; [done|]. eauto.
  - destruct (sget g (fm_grps m)); [done|]. apply findLev_Some in Ev as [Hin Hl]; [|apply Hv]. by rewrite (H v Hin Hl).
Qed.
