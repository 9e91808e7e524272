(** Edits of the maps of families and groups. *)
From stdpp Require Import strings.
From Coq Require Import ZifyBool ZifyNat.
From Verif Require Import Base DataArray StdModel StdProofs ArrLib RenumModel RenumSpec RenumProofs PermProofs SearchModel SearchSpec SearchProofs SetsModel SetsProofs FgModel FgSpec FgProofs FgProofs2 FgProofs3 FgProofs4.

Lemma valid_maps m F G : valid m -> ordered F -> ordered G -> valid (withMaps m F G).
Proof. intros (H1 & H2 & H3 & H4 & H5) HF HG. do 3 (split; [done|]). done. Qed.
Lemma member_maps m F G l g e : valid m -> ordered F -> ordered G ->
  member (withMaps m F G) l g e <-> exists fams a x, sget g G = Some fams /\ fieldOf l m = Some a /\ a @ e = Some x /\ inG F fams x.
Proof. intros Hv HF HG. apply (member_iff (withMaps m F G)). by apply valid_maps. Qed.
Lemma id_at_iff m l e x : valid m -> id_at m l e x <-> exists a, fieldOf l m = Some a /\ a @ e = Some x.
Proof.
  intros (_ & _ & Hn & _). unfold id_at. split.
  - intros (v & a & H1 & H2 & H3 & H4). exists a. split; [|done]. apply fieldOf_iff; eauto.
  - intros (a & H1 & H2). apply fieldOf_iff in H1 as (v & ? & ? & ?); [|done]. eauto 6.
Qed.

Theorem removeGroup_ok m g : valid m -> has_group m g -> exists m', removeGroup g m = Ok m' /\
  (forall l g' e, member m' l g' e <-> member m l g' e /\ g' <> g) /\ (forall g', has_group m' g' <-> has_group m g' /\ g' <> g) /\
  same_levels m m' /\ (coherent m -> coherent m') /\ (no_repeat m -> no_repeat m').
Proof.
  intros Hv Hg. pose proof Hv as (HF & HG & Hn & _). apply has_group_iff in Hg as [fams Hg]; [|done]. unfold removeGroup. rewrite Hg. eexists. split; [done|].
  assert (HG' : ordered (sdel g (fm_grps m))) by (by apply ordered_sdel). assert (Hv' : valid (withMaps m (fm_fams m) (sdel g (fm_grps m)))) by (by apply valid_maps).
  split; [|split; [|split; [|split]]].
  - intros l g' e. rewrite member_maps, member_iff by done. rewrite sget_sdel by done. case_bool_decide as E.
    + split; [by intros (? & ? & ? & ? & _)|tauto].
    + tauto.
  - intros g'. rewrite !has_group_iff by done. cbn [fm_grps withMaps]. rewrite sget_sdel by done. case_bool_decide; [split; [by intros [??]|tauto]|tauto].
  - done.
  - intros (_ & Hc & Hd & Hap & Hb & Hp). split; [done|]. split; [|split; [done|split; [|done]]].
    + intros g' f n Hin. apply sdel_sub in Hin. by apply (Hc g' f n).
    + intros n id (g' & f & H1 & H2 & H3). apply sdel_sub in H1. apply Hap with n. by exists g', f.
  - intros Hnr g' f Hin. apply sdel_sub in Hin. by apply (Hnr g').
Qed.
Lemma removeGroup_throw m g : valid m -> ~ has_group m g -> removeGroup g m = Throw.
Proof. intros Hv Hn. unfold removeGroup. destruct (sget g (fm_grps m)) eqn:E; [|done]. exfalso. apply Hn, has_group_iff; eauto. Qed.

Theorem changeGroupName_ok m o n : valid m -> has_group m o -> ~ has_group m n -> exists m', changeGroupName o n m = Ok m' /\
  (forall l g e, member m' l g e <-> (g = n /\ member m l o e) \/ (g <> n /\ g <> o /\ member m l g e)) /\
  (forall g, has_group m' g <-> g = n \/ (g <> o /\ has_group m g)) /\ same_levels m m' /\ (coherent m -> coherent m') /\ (no_repeat m -> no_repeat m').
Proof.
  intros Hv Ho Hn. pose proof Hv as (HF & HG & Hnd & _). apply has_group_iff in Ho as [fams Ho]; [|done].
  assert (En : sget n (fm_grps m) = None). { destruct (sget n (fm_grps m)) eqn:E; [|done]. exfalso. apply Hn, has_group_iff; eauto. }
  unfold changeGroupName. rewrite Ho, En. eexists. split; [done|].
  assert (Hd' : ordered (sdel o (fm_grps m))) by (by apply ordered_sdel).
  assert (HG' : ordered (sput n fams (sdel o (fm_grps m)))) by (by apply ordered_sput).
  assert (Hno : n <> o) by congruence.
  assert (Hget : forall g, sget g (sput n fams (sdel o (fm_grps m))) = if bool_decide (g = n) then Some fams else if bool_decide (g = o) then None else sget g (fm_grps m)).
  { intros g. rewrite sget_sput, sget_sdel by done. done. }
  assert (Hv' : valid (withMaps m (fm_fams m) (sput n fams (sdel o (fm_grps m))))) by (by apply valid_maps).
  assert (Hin : forall g f, (g, f) ∈ sput n fams (sdel o (fm_grps m)) -> exists g', (g', f) ∈ fm_grps m).
  { intros g f [[= -> ->]|H]%sput_sub; [exists o; by apply elem_sget|]. apply sdel_sub in H. eauto. }
  split; [|split; [|split; [|split]]].
  - intros l g e. rewrite member_maps, !member_iff by done. rewrite Hget. destruct (bool_decide_reflect (g = n)) as [->|E]; [|destruct (bool_decide_reflect (g = o)) as [->|E']].
    + rewrite Ho. split; [by left|]. intros [[_ ?]|[? _]]; done.
    + split; [by intros (? & ? & ? & ? & _)|]. intros [[? _]|(_ & ? & _)]; done.
    + split; [right; done|]. intros [[? _]|(_ & _ & ?)]; done.
  - intros g. rewrite !has_group_iff by done. cbn [fm_grps withMaps]. rewrite Hget. destruct (bool_decide_reflect (g = n)) as [->|E]; [|destruct (bool_decide_reflect (g = o)) as [->|E']].
    + split; [by left|eauto].
    + split; [by intros [??]|]. intros [?|[? _]]; done.
    + split; [by right|]. intros [?|[_ ?]]; done.
  - done.
  - intros (_ & Hc & Hd & Hap & Hb & Hp). split; [done|]. 
    split; [|split; [done|split; [|done]]].
    + intros g f k Hgf Hk. apply Hin in Hgf as [g' Hgf]. by apply (Hc g' f k).
    + intros k id (g & f & H1 & H2 & H3). apply Hin in H1 as [g' H1]. apply Hap with k. by exists g', f.
  - intros Hnr g f Hgf. apply Hin in Hgf as [g' Hgf]. by apply (Hnr g').
Qed.
Lemma changeGroupName_throw m o n : valid m -> ~ (has_group m o /\ ~ has_group m n) -> changeGroupName o n m = Throw.
Proof.
  intros Hv H. unfold changeGroupName. destruct (sget o (fm_grps m)) eqn:E; [|done]. destruct (sget n (fm_grps m)) eqn:E'; [done|].
  exfalso. apply H. split; [apply has_group_iff; eauto|]. intros [? Hx]%has_group_iff; [congruence|done].
Qed.

Lemma elem_rep1 x z l y : NoDup l -> z ∉ l -> y ∈ rep1 x z l <-> (y = z /\ x ∈ l) \/ (y <> x /\ y ∈ l).
Proof.
  intros Hn. induction l as [|w l IH]; intros Hz; cbn [rep1].
  - rewrite !elem_of_nil. tauto.
  - apply NoDup_cons in Hn as [Hw Hn]. apply not_elem_of_cons in Hz as [Hzw Hz]. specialize (IH Hn Hz). destruct (bool_decide_reflect (x = w)) as [->|E].
    + rewrite !elem_of_cons. split; [|intuition congruence]. intros [->|Hy]; [tauto|]. right. split; [congruence|tauto].
    + rewrite !elem_of_cons, IH. split; intuition congruence.
Qed.
Lemma NoDup_rep1 x z l : NoDup l -> z ∉ l -> NoDup (rep1 x z l).
Proof.
  intros Hn Hz. induction l as [|w l IH]; cbn [rep1]; [done|]. apply NoDup_cons in Hn as [Hw Hn]. apply not_elem_of_cons in Hz as [Hzw Hz].
  case_bool_decide; apply NoDup_cons; [done|]. split; [|by apply IH]. rewrite elem_rep1 by done. intros [[? _]|[_ ?]]; [congruence|done].
Qed.
Theorem changeFamilyName_ok m o n : valid m -> closed m -> no_repeat m -> (exists id, (o, id) ∈ fm_fams m) -> (forall id, (n, id) ∉ fm_fams m) ->
  exists m', changeFamilyName o n m = Ok m' /\ same_content m m' /\ (forall g, has_group m' g <-> has_group m g) /\ same_levels m m' /\
    (forall id, (n, id) ∈ fm_fams m' <-> (o, id) ∈ fm_fams m) /\ (coherent m -> coherent m') /\ no_repeat m'.
Proof.
  intros Hv Hc Hnr [id Ho] Hn. pose proof Hv as (HF & HG & Hnd & _). apply elem_sget in Ho; [|done].
  assert (En : sget n (fm_fams m) = None). { destruct (sget n (fm_fams m)) as [x|] eqn:E; [|done]. apply elem_sget in E; [|done]. by apply Hn in E. }
  unfold changeFamilyName. rewrite Ho, En. eexists. split; [done|].
  set (F' := sput n id (sdel o (fm_fams m))). assert (Hd' : ordered (sdel o (fm_fams m))) by (by apply ordered_sdel).
  assert (HF' : ordered F') by (by apply ordered_sput). assert (HG' : ordered (onGroups (rep1 o n) (fm_grps m))) by (by apply ordered_onGroups).
  assert (Hno : n <> o) by congruence.
  assert (Hget : forall k, sget k F' = if bool_decide (k = n) then Some id else if bool_decide (k = o) then None else sget k (fm_fams m)).
  { intros k. unfold F'. by rewrite sget_sput, sget_sdel. }
  assert (Hv' : valid (withMaps m F' (onGroups (rep1 o n) (fm_grps m)))) by (by apply valid_maps).
  assert (Hl : forall g f, sget g (fm_grps m) = Some f -> forall k, k ∈ rep1 o n f <-> (k = n /\ o ∈ f) \/ (k <> o /\ k ∈ f)).
  { intros g f Hg k. apply elem_sget in Hg; [|done]. apply elem_rep1; [by apply (Hnr g)|]. intros Hnf. destruct (Hc g f n Hg Hnf) as [x Hx]. by apply Hn in Hx. }
  assert (Hnf : forall g f, sget g (fm_grps m) = Some f -> n ∉ f).
  { intros g f Hg Hk. apply elem_sget in Hg; [|done]. destruct (Hc g f n Hg Hk) as [x Hx]. by apply Hn in Hx. }
  assert (HinG : forall g f, sget g (fm_grps m) = Some f -> forall x, inG F' (rep1 o n f) x <-> inG (fm_fams m) f x).
  { intros g f Hg x. unfold inG. split.
    - intros (k & Hk & Hx). apply (Hl g f Hg) in Hk as [[-> Hof]|[Hko Hk]].
      + rewrite Hget, bool_decide_eq_true_2 in Hx by done. injection Hx as <-. eauto.
      + exists k. split; [done|]. rewrite Hget, bool_decide_eq_false_2, bool_decide_eq_false_2 in Hx; [done..|]. intros ->. by apply (Hnf g f Hg).
    - intros (k & Hk & Hx). destruct (decide (k = o)) as [->|Hko].
      + exists n. split; [apply (Hl g f Hg); tauto|]. rewrite Hget, bool_decide_eq_true_2 by done. congruence.
      + exists k. split; [apply (Hl g f Hg); tauto|]. rewrite Hget, bool_decide_eq_false_2, bool_decide_eq_false_2; [done..|]. intros ->. by apply (Hnf g f Hg). }
  split; [|split; [|split; [|split; [|split]]]].
  - intros l g e. rewrite member_maps, member_iff by done. rewrite sget_onGroups. destruct (sget g (fm_grps m)) as [f|] eqn:Eg; cbn [fmap option_fmap option_map].
    + split; intros (? & a & x & [= <-] & H1 & H2 & H3); [exists f, a, x|exists (rep1 o n f), a, x]; do 3 (split; [done|]); by apply (HinG g f Eg).
    + split; by intros (? & ? & ? & ? & _).
  - intros g. rewrite !has_group_iff by done. cbn [fm_grps withMaps]. rewrite sget_onGroups. destruct (sget g (fm_grps m)); cbn; [split; eauto|split; by intros [??]].
  - done.
  - intros x. cbn [fm_fams withMaps]. rewrite (elem_sget F') by done. rewrite elem_sget by done. rewrite Hget, bool_decide_eq_true_2 by done. by rewrite Ho.
  - intros (_ & _ & Hd & Hap & Hb & Hp). 
    assert (Hold : forall k x, sget k F' = Some x -> exists k', sget k' (fm_fams m) = Some x /\ (k = n /\ k' = o \/ k <> n /\ k <> o /\ k = k')).
    { intros k x. rewrite Hget. destruct (bool_decide_reflect (k = n)) as [->|E]; [intros [= <-]; exists o; tauto|]. case_bool_decide; [done|]. intros Hk. exists k. tauto. }
    split; [done|]. split; [|split; [|split; [|split; [|done]]]].
    + intros g f k Hgf Hk. apply (elem_sget (onGroups _ _)) in Hgf; [|done]. rewrite sget_onGroups in Hgf. destruct (sget g (fm_grps m)) as [f0|] eqn:Eg; [|done]. injection Hgf as <-.
      cbn [fm_fams withMaps]. apply (Hl g f0 Eg) in Hk as [[-> _]|[Hko Hk]].
      * exists id. apply (elem_sget F'); [done|]. by rewrite Hget, bool_decide_eq_true_2.
      * apply elem_sget in Eg as Eg'; [|done]. destruct (Hc g f0 k Eg' Hk) as [x Hx]. apply elem_sget in Hx; [|done]. exists x. apply (elem_sget F'); [done|].
        rewrite Hget, bool_decide_eq_false_2, bool_decide_eq_false_2; [done..|]. intros ->. by apply (Hnf g f0 Eg).
    + intros k k' x Hk Hk'. apply (elem_sget F') in Hk; [|done]. apply (elem_sget F') in Hk'; [|done]. apply Hold in Hk as (k1 & Hk1 & C1). apply Hold in Hk' as (k2 & Hk2 & C2).
      apply elem_sget in Hk1; [|done]. apply elem_sget in Hk2; [|done]. pose proof (Hd k1 k2 x Hk1 Hk2). intuition congruence.
    + intros k x (g & f & Hg & Hk & Hx). apply (elem_sget (onGroups _ _)) in Hg; [|done]. rewrite sget_onGroups in Hg. destruct (sget g (fm_grps m)) as [f0|] eqn:Eg; [|done]. injection Hg as <-.
      apply (elem_sget F') in Hx; [|done]. assert (Hi : inG (fm_fams m) f0 x) by (apply (HinG g f0 Eg); by exists k). destruct Hi as (k' & Hk' & Hx').
      destruct (Hap k' x) as [H0 H1]; [|done]. exists g, f0. split; [by apply elem_sget|]. split; [done|]. by apply elem_sget.
    + intros l x Hx. destruct (Hb l x Hx) as [?|(k & y & Hky & ?)]; [by left|]. right. apply elem_sget in Hky; [|done]. destruct (decide (k = o)) as [->|Hko].
      * exists n, id. split; [apply (elem_sget F'); [done|]; by rewrite Hget, bool_decide_eq_true_2|]. congruence.
      * exists k, y. split; [|done]. apply (elem_sget F'); [done|]. rewrite Hget, bool_decide_eq_false_2, bool_decide_eq_false_2; [done..|]. intros ->. congruence.
  - intros g f Hg. apply (elem_sget (onGroups _ _)) in Hg; [|done]. rewrite sget_onGroups in Hg. destruct (sget g (fm_grps m)) as [f0|] eqn:Eg; [|done]. injection Hg as <-.
    apply NoDup_rep1; [|by apply (Hnf g)]. apply (Hnr g). by apply elem_sget.
Qed.

Theorem removeFamily_ok m n id : valid m -> distinct m -> no_repeat m -> (n, id) ∈ fm_fams m ->
  exists m', removeFamily n m = Ok m' /\ (forall l g e, member m' l g e <-> member m l g e /\ ~ id_at m l e id) /\
    (forall g, has_group m' g <-> has_group m g) /\ same_levels m m' /\ (forall k x, (k, x) ∈ fm_fams m' <-> (k, x) ∈ fm_fams m /\ k <> n) /\ (closed m -> closed m').
Proof.
  intros Hv Hd Hnr Hn. pose proof Hv as (HF & HG & Hnd & _). apply elem_sget in Hn as Hn'; [|done]. unfold removeFamily. rewrite Hn'. eexists. split; [done|].
  assert (HF' : ordered (sdel n (fm_fams m))) by (by apply ordered_sdel). assert (HG' : ordered (onGroups (del1 n) (fm_grps m))) by (by apply ordered_onGroups).
  assert (Hv' : valid (withMaps m (sdel n (fm_fams m)) (onGroups (del1 n) (fm_grps m)))) by (by apply valid_maps).
  split; [|split; [|split; [|split]]].
  - intros l g e. rewrite member_maps, member_iff, id_at_iff by done. rewrite sget_onGroups. destruct (sget g (fm_grps m)) as [f|] eqn:Eg; cbn [fmap option_fmap option_map].
    2:{ split; [by intros (? & ? & ? & ? & _)|by intros [(? & ? & ? & ? & _) _]]. }
    split.
    + intros (? & a & x & [= <-] & H1 & H2 & (k & Hk & Hx)). rewrite sget_sdel in Hx by done. destruct (bool_decide_reflect (k = n)) as [->|E]; [done|]. split.
      * exists f, a, x. do 3 (split; [done|]). exists k. split; [by apply elem_del1 in Hk|done].
      * intros (a' & H1' & H2'). assert (x = id) by congruence. subst x. apply elem_sget in Hx; [|done]. apply E. by apply (Hd k n id).
    + intros [(? & a & x & [= <-] & H1 & H2 & (k & Hk & Hx)) Hne]. assert (Hkn : k <> n). { intros ->. apply Hne. exists a. split; [done|]. congruence. }
      do 2 eexists. exists x. do 3 (split; [done|]). exists k. split; [by apply del1_elem|]. rewrite sget_sdel by done. by rewrite bool_decide_eq_false_2.
  - intros g. rewrite !has_group_iff by done. cbn [fm_grps withMaps]. rewrite sget_onGroups. destruct (sget g (fm_grps m)); cbn; [split; eauto|split; by intros [??]].
  - done.
  - intros k x. cbn [fm_fams withMaps]. rewrite (elem_sget (sdel n (fm_fams m))) by done. rewrite sget_sdel, elem_sget by done. case_bool_decide; [split; [done|tauto]|tauto].
  - intros Hc g f k Hgf Hk. apply (elem_sget (onGroups _ _)) in Hgf; [|done]. rewrite sget_onGroups in Hgf. destruct (sget g (fm_grps m)) as [f0|] eqn:Eg; [|done]. injection Hgf as <-.
    apply elem_sget in Eg; [|done]. destruct (Hc g f0 k Eg) as [x Hx]; [by apply elem_del1 in Hk|]. exists x. cbn [fm_fams withMaps]. apply (elem_sget (sdel n (fm_fams m))); [done|].
    rewrite sget_sdel by done. rewrite bool_decide_eq_false_2; [by apply elem_sget|]. intros ->. apply (del1_nodup n f0); [by apply (Hnr g)|done].
Qed.

(** Levels transformed one id at a time. *)
Definition mapF (h : Z -> Z) (o : option (list Z)) : option (list Z) := match o with Some a => Some (h <$> a) | None => None end.
Definition mapLevs (h : Z -> Z) (levs : list level) : list level := (fun v => LV (lv_id v) (lv_nb v) (mapF h (lv_fam v))) <$> levs.
Lemma findLev_map h F G levs l : findLev l (FM F G (mapLevs h levs)) = (fun v => LV (lv_id v) (lv_nb v) (mapF h (lv_fam v))) <$> findLev l (FM F G levs).
Proof.
  unfold findLev. cbn [fm_levs]. unfold mapLevs. induction levs as [|v levs IH]; [done|]. rewrite fmap_cons. cbn [list_find lv_id].
  destruct (decide (lv_id v = l)); [done|].
  destruct (list_find (fun v => lv_id v = l) ((fun v => LV (lv_id v) (lv_nb v) (mapF h (lv_fam v))) <$> levs)) as [[? ?]|], (list_find (fun v => lv_id v = l) levs) as [[? ?]|]; done.
Qed.
Lemma fieldOf_map h m F G l : fieldOf l (FM F G (mapLevs h (fm_levs m))) = mapF h (fieldOf l m).
Proof. unfold fieldOf. rewrite findLev_map. change (findLev l (FM F G (fm_levs m))) with (findLev l m). by destruct (findLev l m). Qed.
Lemma valid_map h m F G : valid m -> ordered F -> ordered G -> valid (FM F G (mapLevs h (fm_levs m))).
Proof.
  intros (H1 & H2 & H3 & H4 & H5) HF HG. split; [done|]. split; [done|]. split; [|split].
  - cbn [fm_levs]. unfold mapLevs. rewrite <- list_fmap_compose. exact H3.
  - intros v Hv. cbn [fm_levs] in Hv. unfold mapLevs in Hv. apply elem_of_list_fmap in Hv as (w & -> & Hw). by apply (H4 w).
  - intros v a Hv. cbn [fm_levs] in Hv. unfold mapLevs in Hv. apply elem_of_list_fmap in Hv as (w & -> & Hw). cbn [lv_fam lv_nb]. destruct (lv_fam w) as [b|] eqn:E; [|done].
    cbn. intros [= <-]. rewrite zlen_fmap. by apply H5.
Qed.
Lemma levels_map h m F G : same_levels m (FM F G (mapLevs h (fm_levs m))).
Proof.
  intros l nb. unfold has_level. cbn [fm_levs]. unfold mapLevs. split.
  - intros (v & H1 & H2 & H3). eexists. split; [by apply elem_of_list_fmap_1|]. done.
  - intros (w & Hw & H2 & H3). apply elem_of_list_fmap in Hw as (v & -> & Hv). by exists v.
Qed.
Lemma in_field_map h m F G l x : valid m -> ordered F -> ordered G -> in_field (FM F G (mapLevs h (fm_levs m))) l x <-> exists y, in_field m l y /\ x = h y.
Proof.
  intros Hv HF HG. rewrite in_field_iff by (by apply valid_map). rewrite fieldOf_map. split.
  - intros (a & Ha & Hx). destruct (fieldOf l m) as [b|] eqn:E; [|done]. injection Ha as <-. apply elem_of_list_fmap in Hx as (y & -> & Hy). exists y. split; [|done]. apply in_field_iff; eauto.
  - intros (y & Hy & ->). apply in_field_iff in Hy as (b & -> & Hy); [|done]. eexists. split; [done|]. by apply elem_of_list_fmap_1.
Qed.
Lemma member_map h m F G l g e : valid m -> ordered F -> ordered G ->
  member (FM F G (mapLevs h (fm_levs m))) l g e <-> exists fams a x, sget g G = Some fams /\ fieldOf l m = Some a /\ a @ e = Some x /\ inG F fams (h x).
Proof.
  intros Hv HF HG. rewrite member_iff by (by apply valid_map). cbn [fm_fams fm_grps]. setoid_rewrite fieldOf_map. split.
  - intros (f & a & x & H1 & H2 & H3 & H4). destruct (fieldOf l m) as [b|]; [|done]. injection H2 as <-. rewrite zlook_fmap in H3. destruct (b @ e) as [y|] eqn:E; [|done]. injection H3 as <-. eauto 8.
  - intros (f & a & x & H1 & H2 & H3 & H4). exists f, (h <$> a), (h x). split; [done|]. rewrite H2. split; [done|]. rewrite zlook_fmap, H3. done.
Qed.

Theorem changeFamilyId_ok m o n : valid m -> (forall k, (k, n) ∉ fm_fams m) -> (forall l, ~ in_field m l n) ->
  exists m', changeFamilyId o n m = Ok m' /\ same_content m m' /\ (forall g, has_group m' g <-> has_group m g) /\ same_levels m m' /\
    (forall k x, (k, x) ∈ fm_fams m' <-> exists y, (k, y) ∈ fm_fams m /\ x = if y =? o then n else y) /\
    (forall l e x, id_at m' l e x <-> exists y, id_at m l e y /\ x = if y =? o then n else y).
Proof.
  intros Hv Hn1 Hn2. pose proof Hv as (HF & HG & Hnd & _). unfold changeFamilyId. set (h := fun v => if v =? o then n else v).
  assert (E : forall vs r, foldM (fun r v => match lv_fam v with
    | None => Ok (r ++ [v])
    | Some a => let* (_, a) := changeValue o n (vec a) in Ok (r ++ [LV (lv_id v) (lv_nb v) (Some a)])
    end) vs r = Ok (r ++ mapLevs h vs)).
  { induction vs as [|v vs IH]; intros r; cbn [foldM]; [by rewrite app_nil_r|]. unfold mapLevs. rewrite fmap_cons. destruct v as [i nb fam]. cbn [lv_fam lv_id lv_nb]. destruct fam as [a|].
    - destruct (changeValue_ok (vec a) eq_refl eq_refl o n) as (c & l & -> & -> & _). cbn [bind da_vals vec]. rewrite IH. by rewrite <- app_assoc.
    - cbn [bind]. rewrite IH. by rewrite <- app_assoc. }
  rewrite E. cbn [bind app]. eexists. split; [done|].
  set (F' := (fun p : string * Z => (p.1, if p.2 =? o then n else p.2)) <$> fm_fams m).
  assert (HF' : ordered F') by (by apply (ordered_map (fun p : string * Z => if p.2 =? o then n else p.2))).
  assert (Hget : forall k, sget k F' = h <$> sget k (fm_fams m)). { intros k. unfold F'. by rewrite (sget_map (fun p : string * Z => if p.2 =? o then n else p.2)). }
  assert (Hinj : forall x y, x <> n -> y <> n -> h x = h y -> x = y). { intros x y Hx Hy. unfold h. destruct (Z.eqb_spec x o), (Z.eqb_spec y o); congruence. }
  split; [|split; [|split; [|split]]].
  - intros l g e. rewrite member_map, member_iff by done.
    assert (Hi : forall f a x, fieldOf l m = Some a -> a @ e = Some x -> inG F' f (h x) <-> inG (fm_fams m) f x).
    { intros f a x Ha Hx. unfold inG. split; intros (k & Hk & Hy); exists k; (split; [done|]).
      - rewrite Hget in Hy. destruct (sget k (fm_fams m)) as [y|] eqn:Ek; [|done]. injection Hy as Hy. f_equal. apply Hinj; [| |done].
        + intros ->. apply elem_sget in Ek; [|done]. by apply Hn1 in Ek.
        + intros ->. apply (Hn2 l). apply in_field_iff; [done|]. exists a. split; [done|]. by apply zlook_elem in Hx.
      - by rewrite Hget, Hy. }
    split; intros (f & a & x & H1 & H2 & H3 & H4); exists f, a, x; do 3 (split; [done|]); by apply (Hi f a x).
  - done.
  - apply levels_map.
  - intros k x. cbn [fm_fams]. rewrite (elem_sget F') by done. rewrite Hget. split.
    + destruct (sget k (fm_fams m)) as [y|] eqn:Ek; [|done]. intros [= <-]. exists y. split; [by apply elem_sget|done].
    + intros (y & Hy & ->). apply elem_sget in Hy; [|done]. by rewrite Hy.
  - intros l e x. rewrite !id_at_iff by (try done; by apply valid_map). rewrite fieldOf_map. split.
    + intros (a & Ha & Hx). destruct (fieldOf l m) as [b|] eqn:Eb; [|done]. injection Ha as <-. rewrite zlook_fmap in Hx. destruct (b @ e) as [y|] eqn:Ey; [|done]. injection Hx as <-. exists y. split; [|done]. apply id_at_iff; eauto.
    + intros (y & Hy & ->). apply id_at_iff in Hy as (b & -> & Hy); [|done]. eexists. split; [done|]. by rewrite zlook_fmap, Hy.
Qed.
