(** Removing a group from a level, removing what is not used, renumbering of unused families. *)
From stdpp Require Import strings.
From Coq Require Import ZifyBool ZifyNat.
From Verif Require Import Base DataArray StdModel StdProofs ArrLib RenumModel RenumSpec RenumProofs PermProofs SearchModel SearchSpec SearchProofs SetsModel SetsProofs FgModel FgSpec FgProofs FgProofs2 FgProofs3 FgProofs4 FgProofs5 FgProofs6.

Lemma inter2_ok a b : exists r, buildIntersection (vec a) (Some (vec b)) = Ok r /\ forall x, x ∈ r <-> x ∈ a /\ x ∈ b.
Proof.
  unfold buildIntersection. destruct (intersection_ok [Some (vec a); Some (vec b)]) as (r & Hr & _ & He).
  - intros d. rewrite !elem_of_cons, elem_of_nil. intros [[= ->]|[[= ->]|[]]] [?|?]; done.
  - done.
  - exists r. split; [exact Hr|]. intros x. rewrite He. split.
    + intros [_ H]. split; [apply (H (vec a)); left|apply (H (vec b)); right; left].
    + intros [H1 H2]. split; [exists (vec a); left|]. intros d. rewrite !elem_of_cons, elem_of_nil. intros [[= ->]|[[= ->]|[]]]; done.
Qed.
Lemma keep_loop m kill fams : (forall n, n ∈ fams -> exists y, sget n (fm_fams m) = Some y) ->
  exists r, foldM (fun r n => let* id := getFamilyId n m in let* b := presence id kill in Ok (if b then r else r ++ [n])) fams [] = Ok r /\
    (forall n, n ∈ r <-> n ∈ fams /\ exists y, sget n (fm_fams m) = Some y /\ y ∉ kill) /\ (NoDup fams -> NoDup r).
Proof.
  intros Hr. set (f := fun r n => _). 
  pose proof (wp_foldM f (fun pre r => (forall n, n ∈ r <-> n ∈ pre /\ exists y, sget n (fm_fams m) = Some y /\ y ∉ kill) /\ (NoDup pre -> NoDup r)) fams []
    (fun r => (forall n, n ∈ r <-> n ∈ fams /\ exists y, sget n (fm_fams m) = Some y /\ y ∉ kill) /\ (NoDup fams -> NoDup r)) False) as W.
  apply wp_ok in W as (r & -> & H1 & H2); [by exists r| | |done].
  - split; [|done]. intros n. rewrite elem_of_nil. tauto.
  - intros pre n post r E (H1 & H2). unfold f. destruct (Hr n) as [y Hy]; [rewrite E; apply elem_of_app; right; left|]. unfold getFamilyId. rewrite Hy. cbn [bind].
    destruct (presence_ok y kill) as (b & -> & Hb). cbn [bind wp]. destruct b.
    + split.
      * intros k. rewrite H1, elem_of_app, elem_of_list_singleton. split; [tauto|]. intros [[?| ->] (z & Hz & Hk)]; [eauto|]. exfalso. apply Hk. replace z with y by congruence. by apply Hb.
      * intros (? & _ & _)%NoDup_app. by apply H2.
    + split.
      * intros k. rewrite elem_of_app, elem_of_app, elem_of_list_singleton, H1. split; [intros [[? ?]| ->]; [tauto|]|tauto]. split; [by right|]. exists y. split; [done|]. intros Hk. assert (false = true) by (by apply Hb). done.
      * intros (Hn1 & Hn2 & _)%NoDup_app. apply NoDup_app. split; [by apply H2|]. split; [|apply NoDup_singleton]. intros k [Hk _]%H1. by apply Hn2.
Qed.
Theorem removeGroupAtLevel_ok m l g : valid m -> closed m -> has_group m g -> (exists nb, has_level m l nb) \/ l = 1 ->
  exists m', removeGroupAtLevel l g m = Ok m' /\
    (forall l' e, member m' l' g e <-> member m l' g e /\ ~ exists x, id_at m l' e x /\ in_field m l x) /\
    (forall l' g' e, g' <> g -> member m' l' g' e <-> member m l' g' e) /\ (forall g', has_group m' g' <-> has_group m g') /\ same_levels m m' /\
    (coherent m -> coherent m') /\ (no_repeat m -> no_repeat m').
Proof.
  intros Hv Hc Hg Hl. pose proof Hv as (HF & HG & Hn & Hnb & Hlen). apply has_group_iff in Hg as [fams Hg]; [|done].
  assert (Hreg : forall n, n ∈ fams -> exists y, sget n (fm_fams m) = Some y).
  { intros n Hnf. apply elem_sget in Hg; [|done]. destruct (Hc g fams n Hg Hnf) as [x Hx]. exists x. by apply elem_sget. }
  unfold removeGroupAtLevel, getFamiliesIdsOnGroup, getFamiliesOnGroup. rewrite Hg. cbn [bind].
  destruct (familiesIds_ok m fams Hreg) as (ids & -> & Hids). cbn [bind].
  assert (Hfa : exists o, fieldAt l m = Ok o /\ fieldOf l m = o).
  { unfold fieldAt, fieldOf. destruct (findLev l m) as [v|] eqn:Ev; [exists (lv_fam v); done|]. destruct Hl as [[nb Hl]| ->]; [apply has_level_iff in Hl as (? & ? & _); [congruence|done]|]. exists None. done. }
  destruct Hfa as (o & -> & Ho). cbn [bind].
  assert (Hsame : (forall x, inG (fm_fams m) fams x -> ~ in_field m l x) -> exists m', Ok m = Ok m' /\
    (forall l' e, member m' l' g e <-> member m l' g e /\ ~ exists x, id_at m l' e x /\ in_field m l x) /\
    (forall l' g' e, g' <> g -> member m' l' g' e <-> member m l' g' e) /\ (forall g', has_group m' g' <-> has_group m g') /\ same_levels m m' /\
    (coherent m -> coherent m') /\ (no_repeat m -> no_repeat m')).
  { intros H. exists m. split; [done|]. split; [|done]. intros l' e. split; [|tauto]. intros Hm. split; [done|]. intros (x & Hx & Hf).
    apply member_iff in Hm as (f & a & y & H1 & H2 & H3 & H4); [|done]. apply id_at_iff in Hx as (a' & H5 & H6); [|done]. apply (H y); [congruence|]. congruence. }
  destruct o as [a|]; [|apply Hsame; intros x _ (b & ? & _)%in_field_iff; [congruence|done]].
  destruct (differentValues_ok (vec a) eq_refl) as (vals & -> & _ & Hvals). cbn [bind da_vals vec] in *.
  destruct (inter2_ok ids vals) as (kill & -> & Hkill). cbn [bind].
  assert (Hk : forall x, x ∈ kill <-> inG (fm_fams m) fams x /\ in_field m l x).
  { intros x. rewrite Hkill, Hids, Hvals, in_field_iff by done. rewrite Ho. split; [intros [? ?]; eauto|]. intros [? (? & [= <-] & ?)]. done. }
  destruct kill as [|k0 kl] eqn:Ekill.
  { apply Hsame. intros x Hx Hf. assert (x ∈ ([] : list Z)) as ?%elem_of_nil by (by apply Hk). done. }
  rewrite <- Ekill in *. clear Ekill k0 kl Hsame.
  destruct (keep_loop m kill fams Hreg) as (keep & -> & Hkp & Hkn). cbn [bind]. eexists. split; [done|].
  assert (HG' : ordered (sput g keep (fm_grps m))) by (by apply ordered_sput). pose proof (valid_maps m (fm_fams m) _ Hv HF HG') as Hv'.
  assert (Hsub : forall g' f, (g', f) ∈ sput g keep (fm_grps m) -> exists f0, (g', f0) ∈ fm_grps m /\ forall n, n ∈ f -> n ∈ f0).
  { intros g' f [[= -> ->]|?]%sput_sub; [|eauto]. exists fams. split; [by apply elem_sget|]. by intros n [? _]%Hkp. }
  split; [|split; [|split; [|split; [|split]]]].
  - intros l' e. rewrite member_maps, member_iff by done. rewrite sget_sput, bool_decide_eq_true_2 by done. setoid_rewrite id_at_iff; [|done]. split.
    + intros (? & b & x & [= <-] & H1 & H2 & (n & Hnk & Hx)). apply Hkp in Hnk as (Hnf & y & Hy & Hyk). assert (y = x) by congruence. subst y. split.
      * exists fams, b, x. do 3 (split; [done|]). by exists n.
      * intros (x' & (b' & H1' & H2') & Hf). apply Hyk, Hk. split; [by exists n|]. congruence.
    + intros [(? & b & x & E & H1 & H2 & (n & Hnf & Hx)) Hno]. rewrite Hg in E. injection E as <-. exists keep, b, x. do 3 (split; [done|]). exists n. split; [|done]. apply Hkp. split; [done|].
      exists x. split; [done|]. intros [_ Hf]%Hk. apply Hno. eauto.
  - intros l' g' e Hne. rewrite member_maps, member_iff by done. by rewrite sget_sput, bool_decide_eq_false_2.
  - intros g'. rewrite !has_group_iff by done. cbn [fm_grps withMaps]. rewrite sget_sput. case_bool_decide; [subst; split; eauto|done].
  - done.
  - intros (_ & _ & Hd & Hap & Hb & Hp). split; [done|]. split; [|split; [done|split; [|done]]].
    + intros g' f n Hin Hnf. apply Hsub in Hin as (f0 & Hin & Hs). by apply (Hc g' f0 n Hin), Hs.
    + intros n id (g' & f & H1 & H2 & H3). apply Hsub in H1 as (f0 & Hin & Hs). apply Hap with n. exists g', f0. auto.
  - intros Hnr g' f [[= -> ->]|Hin]%sput_sub; [|by apply (Hnr g')]. apply Hkn. apply (Hnr g). by apply elem_sget.
Qed.

(** *** Orphan families *)
Lemma union2_ok a b : exists r, buildUnion (vec a) (Some (vec b)) = Ok r /\ forall x, x ∈ r <-> x ∈ a \/ x ∈ b.
Proof.
  unfold buildUnion. destruct (union_ok [Some (vec a); Some (vec b)]) as (r & Hr & _ & He).
  - intros d. rewrite !elem_of_cons, elem_of_nil. intros [[= ->]|[[= ->]|[]]] [?|?]; done.
  - exists r. split; [exact Hr|]. intros x. rewrite He. split.
    + intros (d & Hd & Hx). rewrite !elem_of_cons, elem_of_nil in Hd. destruct Hd as [[= ->]|[[= ->]|[]]]; [by left|by right].
    + intros [H|H]; [exists (vec a)|exists (vec b)]; (split; [|done]); rewrite !elem_of_cons; tauto.
Qed.
Lemma idsInUse_ok m : exists r, idsInUse m = Ok r /\
  match r with None => forall v a, v ∈ fm_levs m -> lv_fam v <> Some a | Some s => forall x, x ∈ s <-> exists l, in_field m l x end.
Proof.
  unfold idsInUse. set (f := fun (r : option (list Z)) v => _).
  pose (P := fun (pre : list level) (r : option (list Z)) => match r with None => forall v a, v ∈ pre -> lv_fam v <> Some a | Some s => forall x, x ∈ s <-> exists v a, v ∈ pre /\ lv_fam v = Some a /\ x ∈ a end).
  pose proof (wp_foldM f P (fm_levs m) None (P (fm_levs m)) False) as W. apply wp_ok in W as (r & -> & Hr); [| | |done].
  - exists r. split; [done|]. destruct r as [s|]; [|done]. intros x. cbn in Hr. rewrite Hr. unfold in_field. split.
    + intros (v & a & ? & ? & ?). eauto 8.
    + intros (l & v & a & ? & ? & ? & ?). eauto.
  - by intros v a ?%elem_of_nil.
  - intros pre v post r _ Hr. unfold f. destruct (lv_fam v) as [a|] eqn:Ea.
    + destruct (differentValues_ok (vec a) eq_refl) as (dv & -> & _ & Hdv). cbn [bind da_vals vec] in *. destruct r as [s|]; cbn [P] in *.
      * destruct (union2_ok dv s) as (u & -> & Hu). cbn [bind wp P]. intros x. rewrite Hu, Hdv, Hr. split.
        -- intros [?|(w & b & ? & ? & ?)]; [exists v, a; rewrite elem_of_app, elem_of_list_singleton; tauto|exists w, b; rewrite elem_of_app; tauto].
        -- intros (w & b & [?| ->%elem_of_list_singleton]%elem_of_app & ? & ?); [right; eauto|left; congruence].
      * cbn [wp P]. intros x. rewrite Hdv. split.
        -- intros ?. exists v, a. rewrite elem_of_app, elem_of_list_singleton. tauto.
        -- intros (w & b & [Hw| ->%elem_of_list_singleton]%elem_of_app & Hb & ?); [by apply (Hr w b) in Hw|congruence].
    + cbn [wp]. destruct r as [s|]; cbn [P] in *.
      * intros x. rewrite Hr. split; [intros (w & b & ? & ?); exists w, b; rewrite elem_of_app; tauto|]. intros (w & b & [?| ->%elem_of_list_singleton]%elem_of_app & Hb & ?); [eauto|congruence].
      * intros w b [?| ->%elem_of_list_singleton]%elem_of_app; [by apply Hr|congruence].
Qed.

Lemma drop_loop n gs (grps : list (string * list string)) : ordered grps -> NoDup gs -> (forall g, g ∈ gs -> exists l, sget g grps = Some l /\ n ∈ l) ->
  exists r, foldM (fun grps g => match sget g grps with
             | None => UB
             | Some l => if inS n l then Ok (sput g (del1 n l) grps) else UB
             end) gs grps = Ok r /\ ordered r /\ forall g, sget g r = if bool_decide (g ∈ gs) then del1 n <$> sget g grps else sget g grps.
Proof.
  revert grps. induction gs as [|g gs IH]; intros grps Ho Hn Hg; cbn [foldM].
  - exists grps. split; [done|]. split; [done|]. intros g. rewrite bool_decide_eq_false_2; [done|]. apply not_elem_of_nil.
  - apply NoDup_cons in Hn as [Hgn Hn]. destruct (Hg g ltac:(by left)) as (l & El & Hl). rewrite El. assert (His : inS n l = true) by (unfold inS; by rewrite bool_decide_eq_true_2). rewrite His. cbn [bind].
    destruct (IH (sput g (del1 n l) grps)) as (r & -> & Hr1 & Hr2); [by apply ordered_sput|done| |].
    { intros g' Hg'. rewrite sget_sput, bool_decide_eq_false_2 by congruence. apply Hg. by right. }
    exists r. split; [done|]. split; [done|]. intros g'. rewrite Hr2, sget_sput. destruct (bool_decide_reflect (g' = g)) as [->|E].
    + rewrite bool_decide_eq_false_2 by done. rewrite bool_decide_eq_true_2 by (by left). by rewrite El.
    + destruct (bool_decide_reflect (g' ∈ gs)) as [Hi|Hi]; [rewrite bool_decide_eq_true_2 by (by right); done|]. rewrite bool_decide_eq_false_2; [done|]. rewrite elem_of_cons. tauto.
Qed.
Lemma groupsOn_iff m n g : ordered (fm_grps m) -> g ∈ getGroupsOnFamily n m <-> exists l, sget g (fm_grps m) = Some l /\ n ∈ l.
Proof.
  intros HG. unfold getGroupsOnFamily. rewrite elem_of_list_fmap. split.
  - intros ([g' l] & -> & [Hin Hx]%elem_of_list_filter). exists l. split; [by apply elem_sget|done].
  - intros (l & Hl & Hin). exists (g, l). split; [done|]. apply elem_of_list_filter. split; [done|]. by apply elem_sget.
Qed.
Lemma groupsOn_nodup m n : ordered (fm_grps m) -> NoDup (getGroupsOnFamily n m).
Proof. intros HG. unfold getGroupsOnFamily. apply ordered_nodup. by apply ordered_filter. Qed.

Section Orphan.
  Context (m : fmesh) (used : list Z).
  Hypothesis Hv : valid m.
  Definition gone (pre : list (string * Z)) (k : string) : Prop := exists x, (k, x) ∈ pre /\ x ∉ used.
  Definition OInv (pre : list (string * Z)) (s : list string * list (string * Z) * list (string * list string)) : Prop :=
    let '(ret, F, G) := s in ordered F /\ ordered G /\ (forall k x, sget k F = Some x <-> (k, x) ∈ pre /\ x ∈ used) /\
    (forall k, k ∈ ret <-> gone pre k) /\ (ret = [] -> G = fm_grps m) /\
    forall g, match sget g (fm_grps m), sget g G with
      | None, None => True
      | Some l0, Some l1 => (forall k, k ∈ l1 -> k ∈ l0) /\ (forall k, k ∈ l0 -> k ∈ l1 \/ gone pre k) /\ (NoDup l0 -> NoDup l1 /\ forall k, k ∈ l1 -> ~ gone pre k)
      | _, _ => False
      end.
  Lemma orphan_loop : exists s, foldM (fun '(ret, famMap, grps) (p : string * Z) =>
      let* b := presence p.2 used in
      if b then Ok (ret, sput p.1 p.2 famMap, grps)
      else let* grps := foldM (fun grps g => match sget g grps with
             | None => UB
             | Some l => if inS p.1 l then Ok (sput g (del1 p.1 l) grps) else UB
             end) (getGroupsOnFamily p.1 m) grps in
           Ok (ret ++ [p.1], famMap, grps)) (fm_fams m) ([], [], fm_grps m) = Ok s /\ OInv (fm_fams m) s.
  Proof using All.
    pose proof Hv as (HF & HG & _). pose proof (ordered_nodup _ HF) as Hkeys. apply wp_ok. apply (wp_foldM _ OInv); [| |done].
    - split; [constructor|]. split; [done|]. split; [|split; [|split]].
      + intros k x. cbn [sget]. split; [done|]. by intros [?%elem_of_nil _].
      + intros k. rewrite elem_of_nil. split; [done|]. by intros (x & ?%elem_of_nil & _).
      + done.
      + intros g. destruct (sget g (fm_grps m)) as [l0|]; [|done]. split; [done|]. split; [by left|]. intros Hn. split; [done|]. by intros k _ (x & ?%elem_of_nil & _).
    - intros pre [n id] post [[ret F] G] E (H1 & H2 & H3 & H5 & H6 & H7). cbn [fst snd].
      assert (Hpre : n ∉ pre.*1). { rewrite E, fmap_app, fmap_cons in Hkeys. apply NoDup_app in Hkeys as (_ & H & _). intros Hx. apply (H n Hx). left. }
      assert (Hpre' : forall x, (n, x) ∉ pre). { intros x Hx. apply Hpre. apply elem_of_list_fmap. by exists (n, x). }
      assert (Hgone : forall k, gone (pre ++ [(n, id)]) k <-> gone pre k \/ (k = n /\ id ∉ used)).
      { intros k. unfold gone. split.
        - intros (x & [?|[= -> ->]%elem_of_list_singleton]%elem_of_app & ?); [left; eauto|by right].
        - intros [(x & ? & ?)|[-> ?]]; [exists x|exists id]; rewrite elem_of_app, elem_of_list_singleton; tauto. }
      destruct (presence_ok id used) as (b & -> & Hb). cbn [bind]. destruct b.
      + cbn [wp]. assert (Hu : id ∈ used) by (by apply Hb). split; [by apply ordered_sput|]. split; [done|]. split; [|split; [|split]].
        * intros k x. rewrite sget_sput. destruct (bool_decide_reflect (k = n)) as [->|Hk].
          -- rewrite elem_of_app, elem_of_list_singleton. split; [intros [= <-]; tauto|]. intros [[Hx|[= ->]] _]; [by apply Hpre' in Hx|done].
          -- rewrite H3, elem_of_app, elem_of_list_singleton. split; [tauto|]. intros [[?|[= -> ->]] ?]; done.
        * intros k. rewrite Hgone, H5. split; [by left|]. intros [?|[_ ?]]; done.
        * done.
        * intros g. specialize (H7 g). destruct (sget g (fm_grps m)), (sget g G); try done. destruct H7 as (K1 & K2 & K3). split; [done|]. split.
          -- intros k Hk. rewrite Hgone. destruct (K2 k Hk); tauto.
          -- intros Hn. destruct (K3 Hn) as [? K4]. split; [done|]. intros k Hk [?|[_ ?]]%Hgone; [by apply (K4 k)|done].
      + assert (Hu : id ∉ used). { intros Hu. assert (false = true) by (by apply Hb). done. }
        destruct (drop_loop n (getGroupsOnFamily n m) G) as (G' & -> & Ho' & Hg').
        { done. } { by apply groupsOn_nodup. }
        { intros g (l0 & El & Hin)%groupsOn_iff; [|done]. specialize (H7 g). rewrite El in H7. destruct (sget g G) as [l1|]; [|done]. exists l1. split; [done|].
          destruct H7 as (_ & K2 & _). destruct (K2 n Hin) as [?|(x & Hx & _)]; [done|]. by apply Hpre' in Hx. }
        cbn [bind wp]. split; [done|]. split; [done|]. split; [|split; [|split]].
        * intros k x. rewrite H3, elem_of_app, elem_of_list_singleton. split; [tauto|]. intros [[?|[= -> ->]] ?]; done.
        * intros k. rewrite elem_of_app, elem_of_list_singleton, Hgone, H5. split; [intros [?|?]; [by left|by right]|]. intros [?|[? _]]; [by left|by right].
        * intros Hx. by destruct ret.
        * intros g. specialize (H7 g). rewrite Hg'. destruct (sget g (fm_grps m)) as [l0|] eqn:E0, (sget g G) as [l1|] eqn:E1; try done.
          2:{ by destruct (bool_decide _). }
          destruct H7 as (K1 & K2 & K3).
          assert (Hd : (if bool_decide (g ∈ getGroupsOnFamily n m) then del1 n <$> Some l1 else Some l1) = Some (del1 n l1)).
          { destruct (bool_decide_reflect (g ∈ getGroupsOnFamily n m)) as [Hi|Hi]; [done|]. f_equal. symmetry. apply del1_id. intros Hx. apply Hi, groupsOn_iff; [done|]. exists l0. split; [done|]. by apply K1. }
          rewrite Hd. split; [|split].
          -- intros k Hk. apply K1. by apply elem_del1 in Hk.
          -- intros k Hk. rewrite Hgone. destruct (decide (k = n)) as [->|Hkn]; [tauto|]. destruct (K2 k Hk); [|tauto]. left. by apply del1_elem.
          -- intros Hn. destruct (K3 Hn) as [Hn1 K4]. split; [by apply NoDup_del1|]. intros k Hk [?|[-> _]]%Hgone; [apply (K4 k); [by apply elem_del1 in Hk|done]|]. by apply (del1_nodup n l1).
  Qed.
End Orphan.

Theorem removeOrphanFamilies_ok m : valid m -> exists ret m', removeOrphanFamilies m = Ok (ret, m') /\ same_content m m' /\ same_levels m m' /\ valid m' /\
  (forall k x, (k, x) ∈ fm_fams m' <-> (k, x) ∈ fm_fams m /\ exists l, in_field m l x) /\
  (forall k, k ∈ ret <-> exists x, (k, x) ∈ fm_fams m /\ forall l, ~ in_field m l x) /\
  (forall l x, in_field m' l x <-> in_field m l x) /\
  ((exists l x, in_field m l x) -> forall g, has_group m' g <-> has_group m g) /\
  (closed m -> no_repeat m -> closed m') /\ (no_repeat m -> no_repeat m') /\
  (forall g f, (g, f) ∈ fm_grps m' -> exists f0, (g, f0) ∈ fm_grps m /\ forall n, n ∈ f -> n ∈ f0).
Proof.
  intros Hv. pose proof Hv as (HF & HG & Hn & Hnb & Hlen). unfold removeOrphanFamilies. destruct (idsInUse_ok m) as (u & -> & Hu). cbn [bind]. destruct u as [used|].
  2:{ assert (Hnf : forall l x, ~ in_field m l x). { intros l x (v & a & H1 & _ & H2 & _). by apply (Hu v a). }
      assert (Hnm : forall l g e, ~ member m l g e). { intros l g e (f & n & id & v & a & _ & _ & _ & H1 & _ & H2 & _). by apply (Hu v a). }
      do 2 eexists. split; [done|]. split. { intros l g e. split; [|by intros ?%Hnm]. intros (f & n & id & v & a & ?%elem_of_nil & _). done. }
      split; [done|]. split. { split; [constructor|]. split; [constructor|]. done. }
      split. { intros k x. split; [by intros ?%elem_of_nil|]. intros [_ [l Hl]]. by apply Hnf in Hl. }
      split. { intros k. rewrite elem_of_list_fmap. split; [intros ([k' x] & -> & Hin); eauto|]. intros (x & Hx & _). by exists (k, x). }
      split; [done|]. split; [intros (l & x & Hx); by apply Hnf in Hx|]. split; [by intros _ _ g f n ?%elem_of_nil|]. split; by intros g f ?%elem_of_nil || (intros _ g f ?%elem_of_nil). }
  destruct (orphan_loop m used Hv) as ([[ret F] G] & E & H1 & H2 & H3 & H5 & H6 & H7). rewrite E. cbn [bind]. clear E.
  assert (Hgone : forall k, gone used (fm_fams m) k <-> exists x, (k, x) ∈ fm_fams m /\ forall l, ~ in_field m l x).
  { intros k. unfold gone. split; intros (x & Hx & Hy); exists x; (split; [done|]); [intros l Hl; apply Hy, Hu; eauto|intros [l Hl]%Hu; by apply (Hy l)]. }
  assert (HF' : forall k x, sget k F = Some x <-> sget k (fm_fams m) = Some x /\ exists l, in_field m l x).
  { intros k x. by rewrite H3, Hu, elem_sget. }
  assert (Hmem : same_content m (withMaps m F G)).
  { intros l g e. rewrite member_maps, member_iff by done. specialize (H7 g). destruct (sget g (fm_grps m)) as [l0|] eqn:E0, (sget g G) as [l1|] eqn:E1; try done.
    2:{ split; by intros (? & ? & ? & ? & _). }
    destruct H7 as (K1 & K2 & _). split; intros (? & a & x & [= <-] & Ha & Hx & (k & Hk & Hkx)); do 2 eexists; exists x; do 3 (split; [done|]); exists k.
    - split; [by apply K1|]. by apply HF' in Hkx as [? _].
    - assert (Hlf : exists l, in_field m l x). { exists l. apply in_field_iff; [done|]. exists a. split; [done|]. by apply zlook_elem in Hx. }
      split; [|by apply HF']. destruct (K2 k Hk) as [?|Hgo]; [done|]. apply Hgone in Hgo as (y & Hy & Hno). apply elem_sget in Hy; [|done]. assert (y = x) by congruence. subst y.
      destruct Hlf as [l' Hl']. by apply Hno in Hl'. }
  assert (Hmain : forall m', m' = withMaps m F G -> valid m' /\ (forall k x, (k, x) ∈ fm_fams m' <-> (k, x) ∈ fm_fams m /\ exists l, in_field m l x) /\
    (forall l x, in_field m' l x <-> in_field m l x) /\ (forall g, has_group m' g <-> has_group m g) /\
    (closed m -> no_repeat m -> closed m') /\ (no_repeat m -> no_repeat m') /\
    (forall g f, (g, f) ∈ fm_grps m' -> exists f0, (g, f0) ∈ fm_grps m /\ forall n, n ∈ f -> n ∈ f0)).
  { intros m' ->. pose proof (valid_maps m F G Hv H1 H2) as Hv'. split; [done|]. split; [intros k x; cbn [fm_fams withMaps]; rewrite (elem_sget F), HF', elem_sget by done; done|].
    split; [done|]. split.
    { intros g. rewrite !has_group_iff by done. cbn [fm_grps withMaps]. specialize (H7 g). destruct (sget g (fm_grps m)), (sget g G); try done; split; eauto; by intros [??]. }
    assert (Hg1 : forall g f, (g, f) ∈ G -> exists f0, sget g (fm_grps m) = Some f0 /\ (forall k, k ∈ f -> k ∈ f0) /\ (NoDup f0 -> NoDup f /\ forall k, k ∈ f -> ~ gone used (fm_fams m) k)).
    { intros g f Hg. apply (elem_sget G) in Hg; [|done]. specialize (H7 g). rewrite Hg in H7. destruct (sget g (fm_grps m)) as [f0|]; [|done]. exists f0. destruct H7 as (? & _ & ?). done. }
    split; [|split].
    - intros Hc Hnr g f n Hg Hin. apply Hg1 in Hg as (f0 & E0 & K1 & K2). apply elem_sget in E0; [|done]. destruct (Hc g f0 n E0 (K1 n Hin)) as [x Hx]. exists x. cbn [fm_fams withMaps]. apply (elem_sget F); [done|].
      apply elem_sget in Hx as Hx'; [|done]. apply HF'. split; [done|]. destruct (K2 (Hnr g f0 E0)) as [_ K3]. specialize (K3 n Hin). apply Hu.
      destruct (decide (x ∈ used)) as [?|Hnu]; [done|]. exfalso. apply K3. by exists x.
    - intros Hnr g f Hg. apply Hg1 in Hg as (f0 & E0 & _ & K2). apply elem_sget in E0; [|done]. by apply K2, (Hnr g).
    - intros g f Hg. apply Hg1 in Hg as (f0 & E0 & K1 & _). apply elem_sget in E0; [|done]. eauto. }
  destruct (Hmain _ eq_refl) as (M1 & M2 & M3 & M4 & M5 & M6 & M7).
  destruct ret as [|r0 rs] eqn:Er.
  - exists [], m. split; [done|]. split; [done|]. split; [done|]. split; [done|].
    assert (Hall : forall k x, (k, x) ∈ fm_fams m -> exists l, in_field m l x).
    { intros k x Hx. apply Hu. destruct (decide (x ∈ used)) as [?|Hnu]; [done|]. exfalso. assert (k ∈ ([] : list string)) as ?%elem_of_nil; [|done]. apply H5. by exists x. }
    split; [intros k x; split; [intros Hx; split; [done|by apply (Hall k)]|by intros [? _]]|]. split; [by intros k; rewrite H5, Hgone|].
    split; [done|]. split; [done|]. split; [done|]. split; [done|]. intros g f Hg. eauto.
  - exists ret, (withMaps m F G). rewrite <- Er in *. split; [done|]. split; [done|]. split; [done|]. split; [done|]. split; [done|]. split; [intros k; by rewrite H5, Hgone|].
    split; [done|]. split; [done|]. done.
Qed.
