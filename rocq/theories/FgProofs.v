(** Lemmas on ordered maps and on the names given to new families. *)
From stdpp Require Import strings pretty.
From Coq Require Import ZifyBool ZifyNat.
From Verif Require Import Base DataArray StdModel ArrLib FgModel FgSpec.

Lemma ascii_cmp a b : Ascii.compare a b = N.compare (Ascii.N_of_ascii a) (Ascii.N_of_ascii b).
Proof. done. Qed.
Lemma cmp_refl s : String.compare s s = Eq.
Proof. induction s as [|c s IH]; [done|]. cbn [String.compare]. rewrite ascii_cmp, N.compare_refl. done. Qed.
Lemma ltb_irr s : String.ltb s s = false.
Proof. unfold String.ltb. by rewrite cmp_refl. Qed.
Lemma ltb_trans s t u : String.ltb s t = true -> String.ltb t u = true -> String.ltb s u = true.
Proof.
  unfold String.ltb. revert t u. induction s as [|c s IH]; intros [|d t] [|e u]; cbn [String.compare]; try done.
  rewrite !ascii_cmp.
  destruct (N.compare_spec (Ascii.N_of_ascii c) (Ascii.N_of_ascii d)) as [E| |]; try done;
  destruct (N.compare_spec (Ascii.N_of_ascii d) (Ascii.N_of_ascii e)) as [E'| |]; try done; intros H1 H2.
  - rewrite E, E', N.compare_refl. by apply (IH t).
  - rewrite E. destruct (N.compare_spec (Ascii.N_of_ascii d) (Ascii.N_of_ascii e)); lia || done.
  - rewrite <- E'. destruct (N.compare_spec (Ascii.N_of_ascii c) (Ascii.N_of_ascii d)); lia || done.
  - destruct (N.compare_spec (Ascii.N_of_ascii c) (Ascii.N_of_ascii e)); lia || done.
Qed.
Lemma ltb_total s t : s <> t -> String.ltb s t = false -> String.ltb t s = true.
Proof.
  unfold String.ltb. intros Hn. rewrite (String.compare_antisym t s). destruct (String.compare s t) eqn:E; try done.
  by apply String.compare_eq_iff in E.
Qed.

Section maps.
Context {V : Type}.
Implicit Types (m : list (string * V)) (k : string) (v : V).
Lemma sget_sput m k v k' : sget k' (sput k v m) = if bool_decide (k' = k) then Some v else sget k' m.
Proof.
  induction m as [|[k1 v1] m IH]; cbn [sput sget]; [by destruct (bool_decide_reflect (k' = k))|].
  destruct (bool_decide_reflect (k = k1)) as [->|E]; [|destruct (String.ltb k k1) eqn:L]; cbn [sget].
  - by destruct (bool_decide_reflect (k' = k1)).
  - by destruct (bool_decide_reflect (k' = k)).
  - rewrite IH. destruct (bool_decide_reflect (k' = k1)) as [E1|E1]; [subst|done]. by rewrite bool_decide_eq_false_2.
Qed.
Lemma ordered_cons p m : ordered (p :: m) <-> ordered m /\ forall q, q ∈ m -> String.ltb p.1 q.1 = true.
Proof.
  unfold ordered. split.
  - intros H. apply StronglySorted_inv in H as [H1 H2]. split; [done|]. by apply Forall_forall.
  - intros [H1 H2]. constructor; [done|]. by apply Forall_forall.
Qed.
Lemma elem_sget m k v : ordered m -> (k, v) ∈ m <-> sget k m = Some v.
Proof.
  induction m as [|[k1 v1] m IH]; intros Ho; cbn [sget].
  - split; [by intros ?%elem_of_nil|done].
  - apply ordered_cons in Ho as [Ho Hl]. rewrite elem_of_cons, (IH Ho). case_bool_decide as E.
    + subst k1. split.
      * intros [[= ->]|H]; [done|]. apply (IH Ho) in H. apply Hl in H. cbn in H. by rewrite ltb_irr in H.
      * intros [= ->]. by left.
    + split; [|by right]. intros [[= -> ->]|H]; done.
Qed.
Lemma sput_sub m k v q : q ∈ sput k v m -> q = (k, v) \/ q ∈ m.
Proof.
  induction m as [|[k1 v1] m IH]; cbn [sput].
  - rewrite elem_of_list_singleton. tauto.
  - case_bool_decide; [|destruct (String.ltb k k1)]; rewrite !elem_of_cons; tauto.
Qed.
Lemma ordered_sput m k v : ordered m -> ordered (sput k v m).
Proof.
  induction m as [|[k1 v1] m IH]; intros Ho; cbn [sput].
  - apply ordered_cons. split; [done|]. by intros ? ?%elem_of_nil.
  - pose proof Ho as Ho2. apply ordered_cons in Ho as [Ho Hl]. case_bool_decide as E; [|destruct (String.ltb k k1) eqn:L].
    + subst k1. by apply ordered_cons.
    + apply ordered_cons. split; [done|]. intros q [->|Hq]%elem_of_cons; [done|]. cbn. eapply ltb_trans; [exact L|]. by apply (Hl q).
    + apply ordered_cons. split; [by apply IH|]. intros q [->|Hq]%sput_sub; [|by apply Hl]. cbn. by apply ltb_total.
Qed.
Lemma sdel_sub m k q : q ∈ sdel k m -> q ∈ m.
Proof.
  induction m as [|[k1 v1] m IH]; cbn [sdel]; [done|]. case_bool_decide; rewrite !elem_of_cons; tauto.
Qed.
Lemma ordered_sdel m k : ordered m -> ordered (sdel k m).
Proof.
  induction m as [|[k1 v1] m IH]; intros Ho; cbn [sdel]; [done|]. apply ordered_cons in Ho as [Ho Hl]. case_bool_decide; [done|].
  apply ordered_cons. split; [by apply IH|]. intros q Hq%sdel_sub. by apply Hl.
Qed.
Lemma sget_low m k : (forall q, q ∈ m -> String.ltb k q.1 = true) -> sget k m = None.
Proof.
  induction m as [|[k1 v1] m IH]; intros H; cbn [sget]; [done|]. rewrite bool_decide_eq_false_2.
  - apply IH. intros q Hq. apply H. apply elem_of_cons. by right.
  - intros <-. specialize (H (k, v1)). cbn in H. rewrite ltb_irr in H. discriminate H. by left.
Qed.
Lemma sget_sdel m k k' : ordered m -> sget k' (sdel k m) = if bool_decide (k' = k) then None else sget k' m.
Proof.
  induction m as [|[k1 v1] m IH]; intros Ho; cbn [sdel sget]; [by destruct (bool_decide_reflect (k' = k))|].
  apply ordered_cons in Ho as [Ho Hl]. destruct (bool_decide_reflect (k = k1)) as [->|E].
  - destruct (bool_decide_reflect (k' = k1)) as [E1|E1]; [subst|done]. by apply sget_low.
  - cbn [sget]. rewrite (IH Ho). destruct (bool_decide_reflect (k' = k1)) as [E1|E1]; [subst|done]. by rewrite bool_decide_eq_false_2.
Qed.
Lemma ordered_filter m (P : string * V -> Prop) `{!forall q, Decision (P q)} : ordered m -> ordered (filter P m).
Proof.
  induction m as [|p m IH]; intros Ho; [done|]. apply ordered_cons in Ho as [Ho Hl]. rewrite filter_cons. case_decide; [|by apply IH].
  apply ordered_cons. split; [by apply IH|]. intros q [_ Hq]%elem_of_list_filter. by apply Hl.
Qed.
Lemma ordered_nodup m : ordered m -> NoDup m.*1.
Proof.
  induction m as [|p m IH]; intros Ho; [constructor|]. apply ordered_cons in Ho as [Ho Hl]. rewrite fmap_cons. constructor; [|by apply IH].
  intros (q & E & Hq)%elem_of_list_fmap. specialize (Hl q Hq). by rewrite E, ltb_irr in Hl.
Qed.
Lemma sget_keys m k : sget k m = None <-> k ∉ m.*1.
Proof.
  induction m as [|[k1 v1] m IH]; cbn [sget]; [split; [by intros _ ?%elem_of_nil|done]|].
  rewrite fmap_cons. change ((k1, v1).1) with k1. rewrite elem_of_cons.
  case_bool_decide as E; [subst; split; [done|intros H; exfalso; apply H; by left]|]. rewrite IH. split; [intros H [?|?]; done|intros H H2; apply H; by right].
Qed.
End maps.

Lemma ordered_map {V W} (f : string * V -> W) (m : list (string * V)) : ordered m -> ordered ((fun p => (p.1, f p)) <$> m).
Proof.
  induction m as [|p m IH]; intros Ho; [constructor|]. apply ordered_cons in Ho as [Ho Hl]. rewrite fmap_cons. apply ordered_cons. split; [by apply IH|].
  intros q (p' & -> & Hp)%elem_of_list_fmap. cbn. by apply Hl.
Qed.
Lemma sget_map {V W} (f : string * V -> W) (m : list (string * V)) k : sget k ((fun p => (p.1, f p)) <$> m) = (fun v => f (k, v)) <$> sget k m.
Proof.
  induction m as [|[k1 v1] m IH]; [done|]. rewrite fmap_cons. cbn [sget fst snd]. case_bool_decide as E; [subst; done|]. exact IH.
Qed.
Lemma ordered_onGroups f m : ordered m -> ordered (onGroups f m).
Proof. apply (ordered_map (fun p => f p.2)). Qed.
Lemma sget_onGroups f m g : sget g (onGroups f m) = f <$> sget g m.
Proof. apply (sget_map (fun p => f p.2)). Qed.
Lemma onGroups_keys f m : (onGroups f m).*1 = m.*1.
Proof. unfold onGroups. rewrite <- list_fmap_compose. apply list_fmap_ext. done. Qed.

Lemma elem_del1 x y l : y ∈ del1 x l -> y ∈ l.
Proof. induction l as [|z l IH]; cbn [del1]; [done|]. case_bool_decide; rewrite !elem_of_cons; tauto. Qed.
Lemma del1_elem x y l : y ∈ l -> y <> x -> y ∈ del1 x l.
Proof.
  induction l as [|z l IH]; cbn [del1]; [done|]. case_bool_decide as E; rewrite !elem_of_cons.
  - subst z. intros [->|H] Hn; done.
  - intros [->|H] Hn; [by left|]. right. by apply IH.
Qed.
Lemma del1_nodup x l : NoDup l -> x ∉ del1 x l.
Proof.
  induction l as [|z l IH]; cbn [del1]; [by intros _ ?%elem_of_nil|]. intros [Hz Hl]%NoDup_cons. case_bool_decide as E; [by subst|].
  rewrite elem_of_cons. intros [?|H]; [done|]. by apply IH.
Qed.
Lemma NoDup_del1 x l : NoDup l -> NoDup (del1 x l).
Proof.
  induction l as [|z l IH]; cbn [del1]; [done|]. intros [Hz Hl]%NoDup_cons. case_bool_decide; [done|]. apply NoDup_cons. split; [|by apply IH].
  intros ?%elem_del1. done.
Qed.
Lemma del1_id x l : x ∉ l -> del1 x l = l.
Proof.
  induction l as [|z l IH]; cbn [del1]; [done|]. rewrite elem_of_cons. intros H. rewrite bool_decide_eq_false_2 by tauto. f_equal. apply IH. tauto.
Qed.

(** ** Names. *)
Lemma firstFree_ok c a s : firstFree c a = Some s -> s ∉ a.
Proof. unfold firstFree. intros H. apply List.find_some in H as [_ H]. unfold inS in H. by rewrite negb_true_iff, bool_decide_eq_false in H. Qed.
Lemma firstFree_none c a s : firstFree c a = None -> s ∈ c -> s ∈ a.
Proof.
  unfold firstFree. intros H Hs. apply elem_of_list_In in Hs. apply (List.find_none _ _ H) in Hs. unfold inS in Hs.
  by rewrite negb_false_iff, bool_decide_eq_true in Hs.
Qed.
Lemma len_app s t : String.length (s +:+ t) = (String.length s + String.length t)%nat.
Proof. induction s as [|c s IH]; [done|]. apply (f_equal Datatypes.S IH). Qed.
Definition total_len (l : list string) : nat := sum_list (String.length <$> l).
Lemma cat_len l s : String.length (foldl (fun a b => a +:+ b) s l) = (String.length s + total_len l)%nat.
Proof.
  revert s. induction l as [|x l IH]; intros s; unfold total_len; cbn [foldl fmap list_fmap sum_list sum_list_with]; [cbn; lia|].
  rewrite IH, len_app. unfold total_len. cbn. lia.
Qed.
Lemma total_elem l s : s ∈ l -> (String.length s <= total_len l)%nat.
Proof.
  intros (l1 & l2 & ->)%elem_of_list_split. unfold total_len. rewrite fmap_app, fmap_cons.
  induction l1; cbn; lia.
Qed.
Lemma total_two l s t : s ∈ l -> t ∈ l -> s <> t -> (String.length s + String.length t <= total_len l)%nat.
Proof.
  induction l as [|x l IH]; [by intros ?%elem_of_nil|]. rewrite !elem_of_cons. change (total_len (x :: l)) with (String.length x + total_len l)%nat.
  intros [->|Hs] [->|Ht] Hn; [done|apply total_elem in Ht; lia|apply total_elem in Hs; lia|]. specialize (IH Hs Ht Hn). lia.
Qed.
Lemma createName_fresh s a r : CreateNameNotIn s a = Ok r -> r ∉ a.
Proof.
  unfold CreateNameNotIn. destruct (negb (inS s a)) eqn:E.
  - intros [= <-]. unfold inS in E. by rewrite negb_true_iff, bool_decide_eq_false in E.
  - destruct (firstFree (suffixes s) a) as [s'|] eqn:F; [intros [= <-]; by apply firstFree_ok in F|].
    assert (A : forall r, (let s0 := foldl (fun a b => a +:+ b) "" a in if negb (inS s0 a) then Ok s0 else Throw) = Ok r -> r ∉ a).
    { cbv zeta. intros r0. destruct (negb (inS (foldl (fun a b => a +:+ b) "" a) a)) eqn:G; [|done]. intros [= <-]. unfold inS in G. by rewrite negb_true_iff, bool_decide_eq_false in G. }
    destruct s as [|c s0]; [apply A|]. destruct (128 <=? Ascii.nat_of_ascii c)%nat; [done|].
    destruct (firstFree (prefixed c (String.String c s0)) a) as [s'|] eqn:F2; [intros [= <-]; by apply firstFree_ok in F2|]. apply A.
Qed.
(** A name of at least two characters that begins with a 7-bit character always yields a new name. *)
Lemma createName_ok c s a : (Ascii.nat_of_ascii c < 128)%nat -> (1 <= String.length s)%nat -> exists r, CreateNameNotIn (String.String c s) a = Ok r /\ r ∉ a.
Proof.
  intros Hc Hs. assert (H : exists r, CreateNameNotIn (String.String c s) a = Ok r).
  2: { destruct H as [r H]. exists r. split; [done|]. by apply createName_fresh in H. }
  unfold CreateNameNotIn. destruct (negb (inS (String.String c s) a)) eqn:E; [by eexists|].
  destruct (firstFree (suffixes (String.String c s)) a) as [s'|] eqn:F; [by eexists|]. replace (128 <=? Ascii.nat_of_ascii c)%nat with false by lia.
  destruct (firstFree (prefixed c (String.String c s)) a) as [s'|] eqn:F2; [by eexists|]. cbv zeta.
  destruct (negb (inS (foldl (fun a b => a +:+ b) "" a) a)) eqn:G; [by eexists|]. exfalso.
  unfold inS in E, G. rewrite negb_false_iff, bool_decide_eq_true in E, G.
  assert (Hin : s ∈ a).
  { apply (firstFree_none _ _ _ F). unfold suffixes. apply elem_of_list_fmap. exists 1%nat. split.
    - cbn [String.length String.substring]. replace (Datatypes.S (String.length s) - 1)%nat with (String.length s) by lia.
      clear. induction s as [|d s IH]; [done|]. cbn [String.length String.substring]. by rewrite <- IH.
    - apply elem_of_seq. cbn [String.length]. lia. }
  assert (Hne : s <> String.String c s). { intros He. apply (f_equal String.length) in He. cbn in He. lia. }
  set (big := foldl (fun a b => a +:+ b) "" a) in *. assert (Hb : String.length big = total_len a) by (unfold big; rewrite cat_len; done).
  destruct (decide (big = s)) as [Eb|Nb].
  - pose proof (total_two a s (String.String c s) Hin E Hne) as H. rewrite <- Eb in H at 1. cbn [String.length] in H. lia.
  - pose proof (total_two a big s G Hin Nb). lia.
Qed.
Lemma familyName_ok id a : exists r, CreateNameNotIn (familyName id) a = Ok r /\ r ∉ a.
Proof.
  apply (createName_ok (Ascii.ascii_of_nat 70) ("amily_" +:+ pretty id)); [vm_compute; lia|]. rewrite len_app. change (String.length "amily_") with 6%nat. lia.
Qed.
Lemma familyName_inj i j : familyName i = familyName j -> i = j.
Proof. unfold familyName. intros H. apply (inj (String.append "Family_")) in H. by apply (inj pretty) in H. Qed.
