(** Levels, and the content of groups. *)
From stdpp Require Import strings.
From Coq Require Import ZifyBool ZifyNat.
From Verif Require Import Base DataArray StdModel StdProofs ArrLib SearchModel SearchSpec SearchProofs SetsModel SetsProofs FgModel FgSpec FgProofs.

Definition fieldOf (l : Z) (m : fmesh) : option (list Z) := findLev l m ≫= lv_fam.

Lemma findLev_Some l m v : NoDup (lv_id <$> fm_levs m) -> findLev l m = Some v <-> v ∈ fm_levs m /\ lv_id v = l.
Proof.
  intros Hn. unfold findLev. destruct (list_find (fun v => lv_id v = l) (fm_levs m)) as [[i w]|] eqn:E; cbn.
  - apply list_find_Some in E as (H1 & H2 & H3). split.
    + intros [= ->]. split; [|done]. by apply elem_of_list_lookup_2 in H1.
    + intros [(j & Hj)%elem_of_list_lookup Hv]. f_equal.
      assert (i = j). { eapply (NoDup_lookup _ i j (lv_id w)); [exact Hn|by rewrite list_lookup_fmap, H1|]. rewrite list_lookup_fmap, Hj. cbn. congruence. }
      subst j. congruence.
  - split; [done|]. apply list_find_None in E. intros [H1 H2]. rewrite Forall_forall in E. by apply E in H1.
Qed.
Lemma findLev_None l m : findLev l m = None <-> forall v, v ∈ fm_levs m -> lv_id v <> l.
Proof.
  unfold findLev. destruct (list_find (fun v => lv_id v = l) (fm_levs m)) as [[i w]|] eqn:E; cbn.
  - apply list_find_Some in E as (H1 & H2 & H3). split; [done|]. intros H. apply elem_of_list_lookup_2 in H1. by apply H in H1.
  - apply list_find_None in E. rewrite Forall_forall in E. done.
Qed.
Lemma fieldOf_iff l m a : NoDup (lv_id <$> fm_levs m) -> fieldOf l m = Some a <-> exists v, v ∈ fm_levs m /\ lv_id v = l /\ lv_fam v = Some a.
Proof.
  intros Hn. unfold fieldOf. split.
  - intros (v & H1 & H2)%bind_Some. apply (findLev_Some _ _ _ Hn) in H1 as [? ?]. eauto.
  - intros (v & H1 & H2 & H3). assert (H : findLev l m = Some v) by (apply findLev_Some; done). by rewrite H.
Qed.
Lemma in_field_iff m l x : valid m -> in_field m l x <-> exists a, fieldOf l m = Some a /\ x ∈ a.
Proof.
  intros (_ & _ & Hn & _). unfold in_field. split.
  - intros (v & a & H1 & H2 & H3 & H4). exists a. split; [|done]. apply fieldOf_iff; eauto.
  - intros (a & H & Hx). apply fieldOf_iff in H as (v & ? & ? & ?); [|done]. eauto 6.
Qed.
(** Names of [l] denote families, one of them of id [x]. *)
Definition inG (F : list (string * Z)) (l : list string) (x : Z) : Prop := exists n, n ∈ l /\ sget n F = Some x.
Lemma member_iff m l g e : valid m ->
  member m l g e <-> exists fams a x, sget g (fm_grps m) = Some fams /\ fieldOf l m = Some a /\ a @ e = Some x /\ inG (fm_fams m) fams x.
Proof.
  intros (Hf & Hg & Hn & _). unfold member, inG. split.
  - intros (fams & n & id & v & a & H1 & H2 & H3 & H4 & H5 & H6 & H7). exists fams, a, id. rewrite <- (elem_sget _ _ _ Hg). split; [done|].
    split; [apply fieldOf_iff; eauto|]. split; [done|]. exists n. split; [done|]. by apply elem_sget.
  - intros (fams & a & x & H1 & H2 & H3 & n & H4 & H5). apply fieldOf_iff in H2 as (v & ? & ? & ?); [|done]. apply elem_sget in H1, H5; try done.
    exists fams, n, x, v, a. done.
Qed.
Lemma has_level_iff m l nb : valid m -> has_level m l nb <-> exists v, findLev l m = Some v /\ lv_nb v = nb.
Proof.
  intros (_ & _ & Hn & _). unfold has_level. split.
  - intros (v & H1 & H2 & H3). exists v. split; [|done]. by apply findLev_Some.
  - intros (v & H1 & H3). apply findLev_Some in H1 as [? ?]; [|done]. eauto.
Qed.
Lemma has_group_iff m g : valid m -> has_group m g <-> exists l, sget g (fm_grps m) = Some l.
Proof. intros (_ & Hg & _). unfold has_group. split; intros [l H]; exists l; by apply (elem_sget (fm_grps m)). Qed.

(** putFam. *)
Lemma putFam_id l a m : lv_id <$> fm_levs (putFam l a m) = lv_id <$> fm_levs m.
Proof. unfold putFam. cbn [fm_levs]. rewrite <- list_fmap_compose. apply list_fmap_ext. intros _ v _. cbn. by destruct (lv_id v =? l). Qed.
Lemma findLev_putFam l a m l' : NoDup (lv_id <$> fm_levs m) ->
  findLev l' (putFam l a m) = (fun v => if l' =? l then LV (lv_id v) (lv_nb v) a else v) <$> findLev l' m.
Proof.
  intros Hn. destruct (findLev l' m) as [v|] eqn:E.
  - apply findLev_Some in E as [H1 H2]; [|done]. apply findLev_Some; [by rewrite putFam_id|]. unfold putFam. cbn [fm_levs]. split.
    + apply elem_of_list_fmap. exists v. rewrite H2. done.
    + by destruct (l' =? l).
  - apply findLev_None. intros v. unfold putFam. cbn [fm_levs]. intros (w & -> & Hw)%elem_of_list_fmap.
    apply (proj1 (findLev_None l' m) E) in Hw. by destruct (lv_id w =? l).
Qed.
Lemma fieldOf_putFam l a m l' : NoDup (lv_id <$> fm_levs m) ->
  fieldOf l' (putFam l a m) = if l' =? l then (findLev l m ≫= fun _ => a) else fieldOf l' m.
Proof.
  intros Hn. unfold fieldOf. rewrite findLev_putFam by done. destruct (Z.eqb_spec l' l) as [->|E]; [destruct (findLev l m)|destruct (findLev l' m)]; done.
Qed.

(** getFamiliesIds. *)
Lemma familiesIds_gen m fams r0 : wp (foldM (fun r n => let* id := getFamilyId n m in Ok (r ++ [id])) fams r0)
  (fun r => (forall n, n ∈ fams -> exists id, sget n (fm_fams m) = Some id) /\ forall x, x ∈ r <-> x ∈ r0 \/ inG (fm_fams m) fams x)
  (exists n, n ∈ fams /\ sget n (fm_fams m) = None).
Proof.
  revert r0. induction fams as [|n fams IH]; intros r0; cbn [foldM].
  - cbn [wp]. split; [by intros ? ?%elem_of_nil|]. intros x. split; [by left|]. intros [H|(n & H%elem_of_nil & _)]; done.
  - unfold getFamilyId. destruct (sget n (fm_fams m)) as [id|] eqn:E; cbn [bind].
    + eapply wp_mono; [apply IH| |].
      * intros r [H1 H2]. split.
        -- intros n' [->|Hn]%elem_of_cons; [by exists id|by apply H1].
        -- intros x. rewrite H2, elem_of_app, elem_of_list_singleton. unfold inG. split.
           ++ intros [[H|H]|(n' & H3 & H4)]; [by left|subst; right; exists n; split; [left|done]|right; exists n'; split; [by right|done]].
           ++ intros [H|(n' & [H3|H3]%elem_of_cons & H4)]; [tauto|left; right; congruence|right; eauto].
      * intros (n' & H & H'). exists n'. split; [by right|done].
    + cbn [wp]. exists n. split; [by left|done].
Qed.
Lemma familiesIds_ok m fams : (forall n, n ∈ fams -> exists id, sget n (fm_fams m) = Some id) ->
  exists ids, getFamiliesIds fams m = Ok ids /\ forall x, x ∈ ids <-> inG (fm_fams m) fams x.
Proof.
  intros H. pose proof (familiesIds_gen m fams []) as W. unfold getFamiliesIds.
  destruct (foldM (fun r n => let* id := getFamilyId n m in Ok (r ++ [id])) fams []) as [ids| | |]; cbn [wp] in W; try done.
  - destruct W as [_ W]. exists ids. split; [done|]. intros x. rewrite W. split; [|by right]. intros [?%elem_of_nil|?]; done.
  - destruct W as (n & Hn & E). apply H in Hn as [id Hn]. congruence.
Qed.
Lemma familiesIds_throw m fams n : n ∈ fams -> sget n (fm_fams m) = None -> getFamiliesIds fams m = Throw.
Proof.
  intros Hn E. pose proof (familiesIds_gen m fams []) as W. unfold getFamiliesIds. eapply wp_throw; [exact W|].
  intros r [H _]. apply H in Hn as [id Hn]. congruence.
Qed.

(** sset. *)
Lemma sset_gen l (s : list (string * unit)) x : x ∈ (foldl (fun s k => sput k tt s) s l).*1 <-> x ∈ s.*1 \/ x ∈ l.
Proof.
  revert s. induction l as [|k l IH]; intros s; cbn [foldl].
  - split; [by left|]. intros [?|?%elem_of_nil]; done.
  - rewrite IH, elem_of_cons.
    assert (H : x ∈ (sput k tt s).*1 <-> x = k \/ x ∈ s.*1).
    { pose proof (sget_keys (sput k tt s) x) as A. pose proof (sget_keys s x) as B. rewrite sget_sput in A.
      destruct (bool_decide_reflect (x = k)) as [->|E].
      - split; [by left|]. intros _. destruct (decide (k ∈ (sput k tt s).*1)); [done|]. by apply A in n.
      - destruct (decide (x ∈ s.*1)) as [Hi|Hi]; destruct (decide (x ∈ (sput k tt s).*1)) as [Hj|Hj]; tauto. }
    rewrite H. tauto.
Qed.
Lemma elem_sset l x : x ∈ sset l <-> x ∈ l.
Proof. unfold sset. rewrite sset_gen. split; [intros [?%elem_of_nil|?]; done|by right]. Qed.

Lemma famsOnGroups_gen m grps r0 : wp (foldM (fun r g => let* l := getFamiliesOnGroup g m in Ok (r ++ l)) grps r0)
  (fun r => (forall g, g ∈ grps -> exists l, sget g (fm_grps m) = Some l) /\
     forall n, n ∈ r <-> n ∈ r0 \/ exists g l, g ∈ grps /\ sget g (fm_grps m) = Some l /\ n ∈ l)
  (exists g, g ∈ grps /\ sget g (fm_grps m) = None).
Proof.
  revert r0. induction grps as [|g grps IH]; intros r0; cbn [foldM].
  - cbn [wp]. split; [by intros ? ?%elem_of_nil|]. intros x. split; [by left|]. intros [H|(n & l & H%elem_of_nil & _)]; done.
  - unfold getFamiliesOnGroup. destruct (sget g (fm_grps m)) as [l|] eqn:E; cbn [bind].
    + eapply wp_mono; [apply IH| |].
      * intros r [H1 H2]. split.
        -- intros n' [->|Hn]%elem_of_cons; [by exists l|by apply H1].
        -- intros x. rewrite H2, elem_of_app. split.
           ++ intros [[H|H]|(g' & l' & H3 & H4)]; [by left|right; exists g, l; split; [left|done]|right; exists g', l'; split; [by right|done]].
           ++ intros [H|(g' & l' & [H3|H3]%elem_of_cons & H4 & H5)]; [tauto| |right; eauto]. subst g'. rewrite E in H4. injection H4 as <-. tauto.
      * intros (n' & H & H'). exists n'. split; [by right|done].
    + cbn [wp]. exists g. split; [by left|done].
Qed.

(** The content of several groups. *)
Lemma groupsArr_ok m l grps a : valid m -> closed m -> (forall g, g ∈ grps -> has_group m g) -> fieldOf l m = Some a ->
  exists r, getGroupsArr l grps m = Ok r /\ enumerates (fun e => exists g, g ∈ grps /\ member m l g e) r.
Proof.
  intros Hv Hc Hg Ha. unfold getGroupsArr, getFamiliesOnGroups.
  pose proof (famsOnGroups_gen m grps []) as W.
  destruct (foldM (fun r g => let* l := getFamiliesOnGroup g m in Ok (r ++ l)) grps []) as [fl| | |]; cbn [wp] in W; try done.
  2: { exfalso. destruct W as (g & Hin & E). apply Hg in Hin. apply has_group_iff in Hin as [? ?]; [congruence|done]. }
  destruct W as [_ W]. cbn [bind]. unfold getFamiliesArr.
  destruct (familiesIds_ok m (sset fl)) as (ids & -> & Hids).
  { intros n Hn. rewrite elem_sset in Hn. apply W in Hn as [?%elem_of_nil|(g & l' & H1 & H2 & H3)]; [done|]. destruct Hv as (Hf & Hgo & _). apply elem_sget in H2; [|done].
    destruct (Hc _ _ _ H2 H3) as [id Hid]. exists id. by apply elem_sget. }
  cbn [bind]. unfold fieldOf in Ha. apply bind_Some in Ha as (v & Hl & Hfa). rewrite Hl, Hfa.
  destruct (findIdsEqualList_ok (vec a) eq_refl ids) as (r & Hr & Hinc & Hel). exists r. split; [done|]. split; [done|].
  intros e. rewrite Hel. cbn [da_vals vec]. assert (Hfo : fieldOf l m = Some a) by (unfold fieldOf; by rewrite Hl). split.
  - intros (x & Hx & Hin). apply Hids in Hin as (n & Hn & Hnx). rewrite elem_sset in Hn. apply W in Hn as [?%elem_of_nil|(g & l' & H1 & H2 & H3)]; [done|].
    exists g. split; [done|]. apply member_iff; [done|]. exists l', a, x. split; [done|]. split; [done|]. split; [done|]. exists n. done.
  - intros (g & Hgin & Hm). apply member_iff in Hm as (fams & a' & x & H1 & H2 & H3 & n & H4 & H5); [|done].
    assert (a' = a) as -> by congruence. exists x. split; [done|]. apply Hids. exists n. split; [|done]. apply elem_sset. apply W. right. eauto.
Qed.
