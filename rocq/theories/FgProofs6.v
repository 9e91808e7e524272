(** Whole levels as groups, groups of a level, cleaning. *)
From stdpp Require Import strings.
From Coq Require Import ZifyBool ZifyNat.
From Verif Require Import Base DataArray StdModel StdProofs ArrLib RenumModel RenumSpec RenumProofs PermProofs SearchModel SearchSpec SearchProofs SetsModel SetsProofs FgModel FgSpec FgProofs FgProofs2 FgProofs3 FgProofs4 FgProofs5.

Lemma inG_grow (F F' : list (string * Z)) l x : (forall k y, sget k F = Some y -> sget k F' = Some y) -> (forall n, n ∈ l -> exists y, sget n F = Some y) ->
  inG F' l x <-> inG F l x.
Proof.
  intros Hs Hr. unfold inG. split; intros (n & Hn & Hx); exists n; (split; [done|]).
  - destruct (Hr n Hn) as [y Hy]. pose proof (Hs _ _ Hy). congruence.
  - by apply Hs.
Qed.
Lemma distinct_uniq m : valid m -> distinct m -> uniq (fm_fams m).
Proof. intros (HF & _) Hd n n' x H1 H2. apply elem_sget in H1; [|done]. apply elem_sget in H2; [|done]. by apply (Hd n n' x). Qed.

Lemma names_loop ids F : ordered F -> uniq F -> exists names F', foldM (fun '(names, fams) id =>
    let* (n, _, fams) := findOrCreate id fams in Ok (names ++ [n], fams)) ids ([], F) = Ok (names, F') /\
  ordered F' /\ uniq F' /\ (forall k x, sget k F = Some x -> sget k F' = Some x) /\ (forall k x, sget k F' = Some x -> sget k F = Some x \/ x ∈ ids) /\
  (forall x, inG F' names x <-> x ∈ ids) /\ forall n, n ∈ names -> exists x, sget n F' = Some x.
Proof.
  intros Ho Hu. set (f := fun '(names, fams) id => let* (n, _, fams) := findOrCreate id fams in Ok (names ++ [n], fams)).
  pose proof (wp_foldM f (fun (D : list Z) (s : list string * list (string * Z)) => let '(names, F') := s in ordered F' /\ uniq F' /\ (forall k x, sget k F = Some x -> sget k F' = Some x) /\
    (forall k x, sget k F' = Some x -> sget k F = Some x \/ x ∈ D) /\ (forall x, inG F' names x <-> x ∈ D) /\ forall n, n ∈ names -> exists x, sget n F' = Some x) ids ([], F)
    (fun s => let '(names, F') := s in ordered F' /\ uniq F' /\ (forall k x, sget k F = Some x -> sget k F' = Some x) /\
    (forall k x, sget k F' = Some x -> sget k F = Some x \/ x ∈ ids) /\ (forall x, inG F' names x <-> x ∈ ids) /\ forall n, n ∈ names -> exists x, sget n F' = Some x) False) as W.
  apply wp_ok in W as ([names F'] & E & H); [by exists names, F'| | |by intros [??]].
  - do 3 (split; [done|]). split; [by left|]. split; [|by intros n ?%elem_of_nil]. intros x. rewrite elem_of_nil. split; [|done]. by intros (n & ?%elem_of_nil & _).
  - intros pre id post [names F1] _ (H1 & H2 & H3 & H4 & H5 & H6). unfold f. destruct (findOrCreate_ok id F1 H1 H2) as (n & b & F2 & -> & P1 & P2 & P3 & P4 & P5 & _). cbn [bind wp].
    do 2 (split; [done|]). split; [intros k x Hk; apply P4; by apply H3|]. split; [|split].
    + intros k x Hk. apply P5 in Hk as [Hk|(-> & -> & _)]; [|right; rewrite elem_of_app, elem_of_list_singleton; tauto]. apply H4 in Hk as [?|?]; [by left|right; rewrite elem_of_app; tauto].
    + intros x. rewrite inG_app, elem_of_app, elem_of_list_singleton. rewrite (inG_grow F1 F2 names x P4 H6), H5. apply or_iff_compat_l. unfold inG. split.
      * intros (k & ->%elem_of_list_singleton & Hk). congruence.
      * intros ->. exists n. by rewrite elem_of_list_singleton.
    + intros k [Hk| ->%elem_of_list_singleton]%elem_of_app; [|eauto]. destruct (H6 k Hk) as [x Hx]. eauto.
Qed.
Theorem createGroupOnAll_ok m l g nb : valid m -> closed m -> distinct m -> has_level m l nb -> (exists a, fieldOf l m = Some a) -> ~ has_group m g ->
  exists m', createGroupOnAll l g m = Ok m' /\ (forall e, member m' l g e <-> 0 <= e < nb) /\
    (forall l' e, l' <> l -> member m' l' g e <-> exists x, id_at m l' e x /\ in_field m l x) /\
    (forall l' g' e, g' <> g -> member m' l' g' e <-> member m l' g' e) /\ (forall g', has_group m' g' <-> has_group m g' \/ g' = g) /\ same_levels m m' /\
    valid m' /\ closed m' /\ distinct m'.
Proof.
  intros Hv Hc Hd Hl [a Ha] Hg. pose proof Hv as (HF & HG & Hn & Hnb & Hlen). apply has_level_iff in Hl as (v & Ev & <-); [|done].
  unfold createGroupOnAll. rewrite Ev. assert (Eg : sget g (fm_grps m) = None). { destruct (sget g (fm_grps m)) eqn:E; [|done]. exfalso. apply Hg, has_group_iff; eauto. }
  rewrite Eg. assert (Ef : lv_fam v = Some a). { unfold fieldOf in Ha. by rewrite Ev in Ha. } rewrite Ef.
  assert (Hla : zlen a = lv_nb v). { apply Hlen; [|done]. by apply (findLev_Some l m v Hn) in Ev as [? _]. }
  destruct (differentValues_ok (vec a) eq_refl) as (ids & -> & _ & Hide). cbn [bind da_vals vec] in *.
  destruct (names_loop ids (fm_fams m) HF (distinct_uniq m Hv Hd)) as (names & F' & -> & P1 & P2 & P3 & P4 & P5 & P6). cbn [bind]. eexists. split; [done|].
  assert (HG' : ordered (sput g names (fm_grps m))) by (by apply ordered_sput). pose proof (valid_maps m F' _ Hv P1 HG') as Hv'.
  assert (Hreg : forall g' f, sget g' (fm_grps m) = Some f -> forall n, n ∈ f -> exists y, sget n (fm_fams m) = Some y).
  { intros g' f Hgf n Hnf. apply elem_sget in Hgf; [|done]. destruct (Hc g' f n Hgf Hnf) as [x Hx]. exists x. by apply elem_sget. }
  split; [|split; [|split; [|split; [|split; [|split; [done|split]]]]]].
  - intros e. rewrite member_maps by done. rewrite sget_sput, bool_decide_eq_true_2 by done. rewrite <- Hla. split.
    + intros (? & a' & x & [= <-] & H1 & H2 & _). apply zlook_Some_lt in H2. by replace a with a' by congruence.
    + intros He. destruct (zlook_lt a e He) as [x Hx]. exists names, a, x. do 3 (split; [done|]). apply P5, Hide. by apply zlook_elem in Hx.
  - intros l' e Hne. rewrite member_maps by done. rewrite sget_sput, bool_decide_eq_true_2 by done. setoid_rewrite id_at_iff; [|done]. setoid_rewrite in_field_iff; [|done]. split.
    + intros (? & b & x & [= <-] & H1 & H2 & H3). exists x. split; [eauto|]. exists a. split; [done|]. by apply Hide, P5.
    + intros (x & (b & H1 & H2) & (a' & H3 & H4)). exists names, b, x. do 3 (split; [done|]). apply P5, Hide. by replace a with a' by congruence.
  - intros l' g' e Hne. rewrite member_maps, member_iff by done. rewrite sget_sput, bool_decide_eq_false_2 by done.
    split; intros (f & b & x & H1 & H2 & H3 & H4); exists f, b, x; do 3 (split; [done|]); by apply (inG_grow (fm_fams m) F' f x P3 (Hreg g' f H1)).
  - intros g'. rewrite !has_group_iff by done. cbn [fm_grps withMaps]. rewrite sget_sput. case_bool_decide; [split; [tauto|eauto]|tauto].
  - done.
  - intros g' f n Hgf Hnf. apply (elem_sget (sput _ _ _)) in Hgf; [|done]. rewrite sget_sput in Hgf. cbn [fm_fams withMaps]. destruct (bool_decide_reflect (g' = g)) as [->|E].
    + injection Hgf as <-. destruct (P6 n Hnf) as [x Hx]. exists x. by apply (elem_sget F').
    + destruct (Hreg g' f Hgf n Hnf) as [x Hx]. exists x. apply (elem_sget F'); [done|]. by apply P3.
  - intros n n' x H1 H2. apply (elem_sget F') in H1; [|done]. apply (elem_sget F') in H2; [|done]. by apply (P2 n n' x).
Qed.

(** Groups having entities on a level. *)
Lemma found_loop m (used : list Z) fams b0 : (forall n, n ∈ fams -> exists y, sget n (fm_fams m) = Some y) -> SS used ->
  exists b : bool, foldM (fun (found : bool) n => if found then Ok true else
        match sget n (fm_fams m) with Some id => Ok (smem id used) | None => UB end) fams b0 = Ok b /\ (b = true <-> b0 = true \/ exists x, inG (fm_fams m) fams x /\ x ∈ used).
Proof.
  intros Hr Hs. revert b0 Hr. induction fams as [|n fams IH]; intros b0 Hr; cbn [foldM].
  - exists b0. split; [done|]. split; [by left|]. intros [?|(x & (n & ?%elem_of_nil & _) & _)]; done.
  - destruct (Hr n ltac:(by left)) as [y Hy]. assert (Hr' : forall n0, n0 ∈ fams -> exists y, sget n0 (fm_fams m) = Some y) by (intros n0 H; apply Hr; by right).
    assert (Hst : exists b1 : bool, (if b0 then Ok true else match sget n (fm_fams m) with Some id => Ok (smem id used) | None => UB end) = Ok b1 /\ (b1 = true <-> b0 = true \/ y ∈ used)).
    { destruct b0; [exists true; split; [done|]; tauto|]. rewrite Hy. eexists. split; [done|]. rewrite smem_spec by done. split; [by right|]. intros [?|?]; done. }
    destruct Hst as (b1 & -> & Hb1). cbn [bind]. destruct (IH b1 Hr') as (b & -> & Hb). exists b. split; [done|]. rewrite Hb, Hb1. unfold inG. split.
    + intros [[?|?]|(x & (k & Hk & Hx) & Hu)]; [by left|right; exists y; split; [exists n; split; [by left|done]|done]|right; exists x; split; [exists k; split; [by right|done]|done]].
    + intros [?|(x & (k & Hk & Hx) & Hu)]; [tauto|]. apply elem_of_cons in Hk as [->|Hk]; [left; right; congruence|right; eauto].
Qed.
Theorem groupsOnLev_ok m l : valid m -> closed m -> (exists nb, has_level m l nb) \/ l = 1 ->
  exists r, getGroupsOnSpecifiedLev l m = Ok r /\ (forall g, g ∈ r <-> exists e, member m l g e) /\ NoDup r.
Proof.
  intros Hv Hc Hl. pose proof Hv as (HF & HG & Hn & Hnb & Hlen). unfold getGroupsOnSpecifiedLev, fieldAt.
  assert (Hempty : fieldOf l m = None -> forall g e, ~ member m l g e). { intros E g e Hm. apply member_iff in Hm as (? & ? & ? & _ & ? & _); [congruence|done]. }
  assert (Hnone : fieldOf l m = None -> exists r, Ok (A:=list string) [] = Ok r /\ (forall g, g ∈ r <-> exists e, member m l g e) /\ NoDup r).
  { intros E. exists []. split; [done|]. split; [|constructor]. intros g. rewrite elem_of_nil. split; [done|]. intros [e He]. by apply Hempty in He. }
  unfold fieldOf in *. destruct (findLev l m) as [v|] eqn:Ev.
  2:{ destruct Hl as [[nb Hl]| ->]; [apply has_level_iff in Hl as (? & ? & _); [congruence|done]|]. cbn [Z.eqb bind]. change (1 =? 1) with true. cbn [bind]. by apply Hnone. }
  cbn [bind mbind option_bind] in *. destruct (lv_fam v) as [a|] eqn:Ea; [|by apply Hnone].
  assert (Hfo : fieldOf l m = Some a) by (unfold fieldOf; by rewrite Ev).
  assert (Hreg : forall g' f, (g', f) ∈ fm_grps m -> forall n, n ∈ f -> exists y, sget n (fm_fams m) = Some y).
  { intros g' f Hgf n Hnf. destruct (Hc g' f n Hgf Hnf) as [x Hx]. exists x. by apply elem_sget. }
  pose proof (ordered_nodup _ HG) as Hkeys.
  set (f := fun ret (p : string * list string) => _). 
  pose proof (wp_foldM f (fun pre r => (forall g, g ∈ r <-> exists fams x, (g, fams) ∈ pre /\ inG (fm_fams m) fams x /\ x ∈ a) /\ NoDup r) (fm_grps m) []
    (fun r => (forall g, g ∈ r <-> exists fams x, (g, fams) ∈ fm_grps m /\ inG (fm_fams m) fams x /\ x ∈ a) /\ NoDup r) False) as W.
  apply wp_ok in W as (r & Er & Hr & Hnd); [| | |done].
  - exists r. split; [done|]. split; [|done]. intros g. rewrite Hr. split.
    + intros (fams & x & H1 & H2 & (e & He)%elem_of_zlook). exists e. apply member_iff; [done|]. exists fams, a, x. split; [by apply elem_sget|]. done.
    + intros (e & Hm). apply member_iff in Hm as (fams & a' & x & H1 & H2 & H3 & H4); [|done]. exists fams, x. split; [by apply elem_sget|]. split; [done|].
      replace a with a' by congruence. by apply zlook_elem in H3.
  - split; [|constructor]. intros g. rewrite elem_of_nil. split; [done|]. by intros (? & ? & ?%elem_of_nil & _).
  - intros pre [g fams] post r E (Hr & Hnd). unfold f. cbn [fst snd].
    assert (Hgin : (g, fams) ∈ fm_grps m) by (rewrite E; apply elem_of_app; right; left).
    assert (Hgpre : g ∉ pre.*1). { rewrite E, fmap_app, fmap_cons in Hkeys. apply NoDup_app in Hkeys as (_ & H & _). intros Hx. apply (H g Hx). left. }
    assert (Hgr : g ∉ r). { intros (f0 & x & Hin & _)%Hr. apply Hgpre. apply elem_of_list_fmap. by exists (g, f0). }
    destruct (found_loop m (set_of a) fams false (Hreg g fams Hgin) (SS_set_of a)) as (b & Eb & Hb).
    rewrite Eb. cbn [bind wp]. assert (Hb' : b = true <-> exists x, inG (fm_fams m) fams x /\ x ∈ a).
    { rewrite Hb. setoid_rewrite elem_of_set_of. split; [by intros [?|?]|by right]. }
    destruct b.
    + split; [|apply NoDup_app; split; [done|]; split; [by intros ? ? ->%elem_of_list_singleton|apply NoDup_singleton]].
      intros g'. rewrite elem_of_app, elem_of_list_singleton, Hr. setoid_rewrite elem_of_app. setoid_rewrite elem_of_list_singleton. split.
      * intros [(f0 & x & ? & ?)| ->]; [eauto 8|]. destruct (proj1 Hb' eq_refl) as (x & ? & ?). exists fams, x. tauto.
      * intros (f0 & x & [?|[= -> ->]] & ?); [left; eauto|by right].
    + split; [|done]. intros g'. rewrite Hr. setoid_rewrite elem_of_app. setoid_rewrite elem_of_list_singleton. split.
      * intros (f0 & x & ? & ?). eauto 8.
      * intros (f0 & x & [?|[= -> ->]] & ?); [eauto|]. assert (false = true) by (apply Hb'; eauto). done.
Qed.
