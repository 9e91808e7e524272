(** Proofs for the time labels. *)
From Verif Require Import Base TimeModel TimeSpec.
From Coq Require Import ZifyBool ZifyNat.

Definition valid (s : tstate) : Prop := forall i l, label s i = Some l -> l < t_glob s.
Definition linked (s : tstate) : Prop := forall i ks j, kids s i = Some ks -> j ∈ ks -> 0 <= j < zlen (t_objs s).

Lemma rd_inv {A} (l : list A) i x : rd l i = Ok x -> l @ i = Some x.
Proof. unfold rd. destruct (l @ i); congruence. Qed.
Lemma wr_inv {A} (l l' : list A) i x : wr l i x = Ok l' -> 0 <= i < zlen l /\ l' = zset l i x.
Proof. unfold wr. destruct ((0 <=? i) && (i <? zlen l)) eqn:E; [|done]. intros [=<-]. split; [lia|done]. Qed.
Global Instance modifies_dec j c : Decision (modifies j c).
Proof. destruct c; simpl; apply _. Defined.
Ltac binv H :=
  match type of H with
  | bind ?r _ = Ok _ => let E := fresh "E" in destruct r eqn:E; cbn [bind] in H; try done
  end.

Lemma label_zset s g i o j : 0 <= i < zlen (t_objs s) ->
  label (TSt g (zset (t_objs s) i o)) j = (if j =? i then Some (t_time o) else label s j) /\
  kids (TSt g (zset (t_objs s) i o)) j = (if j =? i then Some (t_kids o) else kids s j).
Proof. intros Hi. unfold label, kids. cbn [t_objs]. rewrite zlook_zset by lia. destruct (j =? i); done. Qed.

Lemma declare_spec s i s' : declareAsNew s i = Ok s' ->
  t_glob s' = t_glob s + 1 /\ (forall j, label s' j = if j =? i then Some (t_glob s) else label s j) /\ (forall j, kids s' j = kids s j).
Proof.
  unfold declareAsNew. intros H. binv H. binv H. injection H as <-. apply rd_inv in E. apply wr_inv in E0 as [Hi ->].
  split; [done|]. split; intros j; [apply label_zset; done|]. rewrite (proj2 (label_zset s (t_glob s + 1) i _ j Hi)).
  destruct (Z.eqb_spec j i) as [->|]; [|done]. unfold kids. rewrite E. done.
Qed.
Lemma setKids_spec s i ks s' : setKids s i ks = Ok s' ->
  t_glob s' = t_glob s + 1 /\ (forall j, label s' j = if j =? i then Some (t_glob s) else label s j) /\
  (forall j, kids s' j = if j =? i then Some ks else kids s j).
Proof.
  unfold setKids. intros H. destruct (known s ks); cbn [negb ubif] in H; [|done]. binv H. binv H. apply rd_inv in E. apply wr_inv in E0 as [Hi ->]. apply declare_spec in H as (H1 & H2 & H3).
  cbn [t_glob] in *. split; [done|]. split; intros j.
  - rewrite H2. rewrite (proj1 (label_zset s (t_glob s) i _ j Hi)). destruct (j =? i); done.
  - rewrite H3. apply label_zset. done.
Qed.
Lemma with_spec s i j s' : updateTimeWith s i j = Ok s' ->
  t_glob s' = t_glob s /\ (exists li lj, label s i = Some li /\ label s j = Some lj /\ label s' i = Some (Z.max li lj)) /\
  (forall k, k <> i -> label s' k = label s k) /\ (forall k, kids s' k = kids s k).
Proof.
  unfold updateTimeWith. intros H. binv H. binv H. apply rd_inv in E, E0. destruct (Z.ltb_spec (t_time a) (t_time a0)) as [Hl|Hl].
  - binv H. injection H as <-. apply wr_inv in E1 as [Hi ->]. split; [done|]. split; [|split].
    + exists (t_time a), (t_time a0). unfold label at 1 2. rewrite E, E0. split; [done|]. split; [done|].
      rewrite (proj1 (label_zset s (t_glob s) i _ i Hi)). rewrite Z.eqb_refl. simpl. f_equal. lia.
    + intros k Hk. rewrite (proj1 (label_zset s (t_glob s) i _ k Hi)). replace (k =? i) with false by lia. done.
    + intros k. rewrite (proj2 (label_zset s (t_glob s) i _ k Hi)). destruct (Z.eqb_spec k i) as [->|]; [|done]. unfold kids. rewrite E. done.
  - injection H as <-. split; [done|]. split; [|done]. exists (t_time a), (t_time a0). unfold label. rewrite E, E0. simpl.
    split; [done|]. split; [done|]. f_equal. lia.
Qed.

(** the label is the largest of its own and those of the list *)
Lemma fold_with ks : forall s i s', foldM (fun s j => updateTimeWith s i j) ks s = Ok s' ->
  t_glob s' = t_glob s /\ (forall k, k <> i -> label s' k = label s k) /\ (forall k, kids s' k = kids s k) /\
  (forall li, label s i = Some li -> exists l', label s' i = Some l' /\ li <= l' /\ (l' = li \/ exists j, j ∈ ks /\ label s j = Some l') /\
     forall j lj, j ∈ ks -> label s j = Some lj -> lj <= l').
Proof.
  induction ks as [|k ks IH]; intros s i s' H; cbn [foldM] in H.
  - injection H as <-. split_and!; try done. intros li Hl. exists li. split; [done|]. split; [lia|]. split; [by left|]. intros j lj Hj. inversion Hj.
  - binv H. apply with_spec in E as (G1 & (li & lk & Hi & Hk & Hn) & G3 & G4). apply IH in H as (K1 & K2 & K3 & K4).
    split; [lia|]. split; [intros j Hj; rewrite K2, G3; done|]. split; [intros j; rewrite K3, G4; done|].
    intros l0 Hl0. rewrite Hi in Hl0. injection Hl0 as <-. destruct (K4 _ Hn) as (l' & M1 & M2 & M3 & M4). exists l'. split; [done|]. split; [lia|]. split.
    + destruct M3 as [->|(j & Hj & Hlj)].
      * destruct (Z.max_spec li lk) as [[? ->]|[? ->]]; [right; exists k; split; [left|done]|by left].
      * destruct (Z.eq_dec j i) as [->|Hne].
        -- rewrite Hn in Hlj. injection Hlj as <-. destruct (Z.max_spec li lk) as [[? E]|[? E]]; rewrite E; [right; exists k; split; [left|done]|by left].
        -- right. exists j. split; [by right|]. rewrite <- G3; done.
    + intros j lj Hj Hlj. apply elem_of_cons in Hj as [->|Hj].
      * rewrite Hk in Hlj. injection Hlj as <-. lia.
      * destruct (Z.eq_dec j i) as [->|Hne]; [rewrite Hi in Hlj; injection Hlj as <-; lia|]. apply (M4 j); [done|]. rewrite G3; done.
Qed.
Lemma update_spec s i s' : updateTime s i = Ok s' -> exists ks li l', kids s i = Some ks /\ label s i = Some li /\ label s' i = Some l' /\
  t_glob s' = t_glob s /\ (forall k, k <> i -> label s' k = label s k) /\ (forall k, kids s' k = kids s k) /\
  li <= l' /\ (exists j, j ∈ i :: ks /\ label s j = Some l') /\ (forall j lj, j ∈ i :: ks -> label s j = Some lj -> lj <= l').
Proof.
  unfold updateTime. intros H. binv H. apply rd_inv in E. apply fold_with in H as (H1 & H2 & H3 & H4).
  assert (Hl : label s i = Some (t_time a)) by (unfold label; rewrite E; done).
  destruct (H4 _ Hl) as (l' & K1 & K2 & K3 & K4). exists (t_kids a), (t_time a), l'. split; [unfold kids; rewrite E; done|].
  split_and!; try done.
  - destruct K3 as [->|(j & Hj & Hlj)]; [exists i; split; [left|done]|exists j; split; [by right|done]].
  - intros j lj Hj Hlj. apply elem_of_cons in Hj as [->|Hj]; [rewrite Hl in Hlj; injection Hlj as <-; done|by apply (K4 j)].
Qed.

Lemma label_app s g o j : label (TSt g (t_objs s ++ [o])) j = (if j =? zlen (t_objs s) then Some (t_time o) else label s j) /\
  kids (TSt g (t_objs s ++ [o])) j = (if j =? zlen (t_objs s) then Some (t_kids o) else kids s j).
Proof.
  unfold label, kids. cbn [t_objs]. rewrite zlook_app. destruct (Z.eqb_spec j (zlen (t_objs s))) as [->|E].
  - replace (zlen (t_objs s) <? zlen (t_objs s)) with false by lia. replace (zlen (t_objs s) - zlen (t_objs s)) with 0 by lia. done.
  - destruct (Z.ltb_spec j (zlen (t_objs s))) as [L|L]; [done|]. rewrite (zlook_ge [o]) by (change (zlen [o]) with 1; lia).
    rewrite (zlook_ge (t_objs s)) by lia. done.
Qed.
Lemma label_lt s j l : label s j = Some l -> 0 <= j < zlen (t_objs s).
Proof. unfold label. destruct (t_objs s @ j) eqn:E; [|done]. intros _. exact (zlook_Some_lt _ _ _ E). Qed.

(** one call, seen from an existing object that it does not force *)
Lemma step_spec s c s' j l : tstep s c = Ok s' -> valid s -> label s j = Some l -> ~ forces j c ->
  valid s' /\ t_glob s <= t_glob s' /\ exists l', label s' j = Some l' /\ l <= l' /\
   (modifies j c -> l' = t_glob s) /\ (~ modifies j c -> kids s' j = kids s j /\ (l' = l \/ c = TUpdate j)).
Proof.
  intros H Hv Hj Hf. pose proof (Hv _ _ Hj) as Hlt. destruct c as [ks|i|i|i|i ks|i k]; simpl in H.
  - unfold newLabel in H. destruct (known s ks); cbn [negb ubif] in H; [|done]. injection H as <-. pose proof (label_lt _ _ _ Hj). split; [|split; [simpl; lia|]].
    + intros k lk. rewrite (proj1 (label_app _ _ _ _)). cbn [t_glob]. destruct (k =? _); [intros [=<-]; simpl; lia|]. intros Hk. apply Hv in Hk. lia.
    + exists l. rewrite (proj1 (label_app _ _ _ _)), (proj2 (label_app _ _ _ _)). replace (j =? _) with false by lia.
      split; [done|]. split; [lia|]. split; [done|]. intros _. split; [done|by left].
  - unfold copyLabel in H. binv H. injection H as <-. pose proof (label_lt _ _ _ Hj). apply rd_inv in E. split; [|split; [simpl; lia|]].
    + intros k lk. rewrite (proj1 (label_app _ _ _ _)). cbn [t_glob]. destruct (k =? _); [|apply Hv]. intros [=<-]. apply (Hv i). unfold label. rewrite E. done.
    + exists l. rewrite (proj1 (label_app _ _ _ _)), (proj2 (label_app _ _ _ _)). replace (j =? _) with false by lia.
      split; [done|]. split; [lia|]. split; [done|]. intros _. split; [done|by left].
  - apply declare_spec in H as (H1 & H2 & H3). split; [|split; [lia|]].
    + intros k lk. rewrite H2, H1. destruct (k =? i); [intros [=<-]; lia|]. intros Hk. apply Hv in Hk. lia.
    + rewrite H2, H3. simpl. destruct (Z.eqb_spec j i) as [->|Hne].
      * exists (t_glob s). split; [done|]. split; [lia|]. split; [done|]. intros Hm. done.
      * exists l. split; [done|]. split; [lia|]. split; [intros ->; done|]. intros _. split; [done|by left].
  - apply update_spec in H as (ks & li & l' & K1 & K2 & K3 & K4 & K5 & K6 & K7 & (k & K8 & K8') & K9).
    split; [|split; [lia|]].
    + intros k' lk Hk. destruct (Z.eq_dec k' i) as [->|Hne]; [rewrite K3 in Hk; injection Hk as <-; rewrite K4; by apply (Hv k)|].
      rewrite K5 in Hk by done. rewrite K4. by apply (Hv k').
    + destruct (Z.eq_dec j i) as [->|Hne].
      * exists l'. rewrite Hj in K2. injection K2 as <-. split; [done|]. split; [done|]. split; [done|]. intros _. split; [done|by right].
      * exists l. rewrite K5 by done. split; [done|]. split; [lia|]. split; [done|]. intros _. split; [done|by left].
  - apply setKids_spec in H as (H1 & H2 & H3). split; [|split; [lia|]].
    + intros k lk. rewrite H2, H1. destruct (k =? i); [intros [=<-]; lia|]. intros Hk. apply Hv in Hk. lia.
    + rewrite H2, H3. simpl. destruct (Z.eqb_spec j i) as [->|Hne].
      * exists (t_glob s). split; [done|]. split; [lia|]. split; [done|]. intros Hm. done.
      * exists l. split; [done|]. split; [lia|]. split; [intros ->; done|]. intros _. split; [done|by left].
  - unfold forceTimeOfThis in H. binv H. binv H. binv H. injection H as <-. apply rd_inv in E, E0. apply wr_inv in E1 as [Hi ->].
    assert (Hne : j <> i). { intros ->. apply Hf. done. } split; [|split; [simpl; lia|]].
    + intros k' lk. rewrite (proj1 (label_zset s (t_glob s) i _ k' Hi)). cbn [t_glob]. destruct (k' =? i); [|apply Hv]. intros [=<-]. apply (Hv k). unfold label. rewrite E0. done.
    + exists l. rewrite (proj1 (label_zset s (t_glob s) i _ j Hi)), (proj2 (label_zset s (t_glob s) i _ j Hi)). replace (j =? i) with false by lia.
      split; [done|]. split; [lia|]. split; [done|]. intros _. split; [done|by left].
Qed.
Lemma step_valid s c s' : tstep s c = Ok s' -> valid s -> valid s'.
Proof.
  intros H Hv. destruct c as [ks|i|i|i|i ks|i k]; simpl in H.
  - unfold newLabel in H. destruct (known s ks); cbn [negb ubif] in H; [|done]. injection H as <-. intros k lk. rewrite (proj1 (label_app _ _ _ _)). cbn [t_glob]. destruct (k =? _); [intros [=<-]; simpl; lia|]. intros Hk. apply Hv in Hk. lia.
  - unfold copyLabel in H. binv H. injection H as <-. apply rd_inv in E.
    intros k lk. rewrite (proj1 (label_app _ _ _ _)). cbn [t_glob]. destruct (k =? _); [|apply Hv]. intros [=<-]. apply (Hv i). unfold label. rewrite E. done.
  - apply declare_spec in H as (H1 & H2 & H3).
    intros k lk. rewrite H2, H1. destruct (k =? i); [intros [=<-]; lia|]. intros Hk. apply Hv in Hk. lia.
  - apply update_spec in H as (ks & li & l' & K1 & K2 & K3 & K4 & K5 & K6 & K7 & (k & K8 & K8') & K9).
    intros k' lk Hk. destruct (Z.eq_dec k' i) as [->|Hne]; [rewrite K3 in Hk; injection Hk as <-; rewrite K4; by apply (Hv k)|].
    rewrite K5 in Hk by done. rewrite K4. by apply (Hv k').
  - apply setKids_spec in H as (H1 & H2 & H3).
    intros k lk. rewrite H2, H1. destruct (k =? i); [intros [=<-]; lia|]. intros Hk. apply Hv in Hk. lia.
  - unfold forceTimeOfThis in H. binv H. binv H. binv H. injection H as <-. apply rd_inv in E, E0. apply wr_inv in E1 as [Hi ->].
    intros k' lk. rewrite (proj1 (label_zset s (t_glob s) i _ k' Hi)). cbn [t_glob]. destruct (k' =? i); [|apply Hv]. intros [=<-]. apply (Hv k). unfold label. rewrite E0. done.
Qed.
Lemma run_valid cs : forall s s', run s cs = Ok s' -> valid s -> valid s'.
Proof.
  induction cs as [|c cs IH]; intros s s' H Hv; cbn in H; [injection H as <-; done|]. binv H. apply (IH a); [done|]. by apply (step_valid s c).
Qed.
Lemma start_valid : valid tstart.
Proof. intros i l. unfold label. simpl. rewrite zlook_nil. done. Qed.

Lemma declare_newest cs s i s' : run tstart cs = Ok s -> declareAsNew s i = Ok s' ->
  exists l, label s' i = Some l /\ (forall j lj, label s j = Some lj -> lj < l) /\ (forall j, j <> i -> label s' j = label s j).
Proof.
  intros Hr H. pose proof (run_valid _ _ _ Hr start_valid) as Hv. apply declare_spec in H as (H1 & H2 & H3). exists (t_glob s).
  rewrite H2, Z.eqb_refl. split; [done|]. split; [exact Hv|]. intros j Hj. rewrite H2. replace (j =? i) with false by lia. done.
Qed.

(** the components stay objects *)
Lemma known_spec s ks : known s ks = true -> forall j, j ∈ ks -> 0 <= j < zlen (t_objs s).
Proof.
  intros H j Hj. unfold known in H. rewrite forallb_forall in H. apply elem_of_list_In in Hj. apply H in Hj. lia.
Qed.
Lemma with_len s i j s' : updateTimeWith s i j = Ok s' -> zlen (t_objs s') = zlen (t_objs s).
Proof.
  unfold updateTimeWith. intros H. binv H. binv H. destruct (_ <? _); [|injection H as <-; done]. binv H. injection H as <-.
  apply wr_inv in E1 as [_ ->]. simpl. apply zlen_zset.
Qed.
Lemma step_linked s c s' : tstep s c = Ok s' -> linked s -> linked s'.
Proof.
  intros H Hl. destruct c as [ks|i|i|i|i ks|i k]; simpl in H.
  - unfold newLabel in H. destruct (known s ks) eqn:Ek; cbn [negb ubif] in H; [|done]. injection H as <-. intros i ks' j.
    rewrite (proj2 (label_app _ _ _ _)). cbn [t_objs]. rewrite zlen_app. change (zlen [_]) with 1. pose proof (zlen_nonneg (t_objs s)).
    destruct (i =? _); [intros [=<-] Hj; apply (known_spec s) in Hj; [simpl in *; lia|done]|]. intros Hk Hj. pose proof (Hl _ _ _ Hk Hj). lia.
  - unfold copyLabel in H. binv H. injection H as <-. apply rd_inv in E. intros i' ks' j.
    rewrite (proj2 (label_app _ _ _ _)). cbn [t_objs]. rewrite zlen_app. change (zlen [_]) with 1. pose proof (zlen_nonneg (t_objs s)).
    destruct (i' =? _); [intros [=<-] Hj|intros Hk Hj].
    + assert (Hk : kids s i = Some (t_kids a)) by (unfold kids; rewrite E; done). pose proof (Hl _ _ _ Hk Hj). lia.
    + pose proof (Hl _ _ _ Hk Hj). lia.
  - pose proof (declare_spec _ _ _ H) as (_ & _ & H3). unfold declareAsNew in H. binv H. binv H. injection H as <-. apply wr_inv in E0 as [_ ->].
    intros i' ks' j. rewrite H3. cbn [t_objs]. rewrite zlen_zset. apply Hl.
  - pose proof (update_spec _ _ _ H) as (_ & _ & _ & _ & _ & _ & _ & _ & H3 & _). unfold updateTime in H. binv H.
    assert (Hlen : forall ks s s', foldM (fun s j => updateTimeWith s i j) ks s = Ok s' -> zlen (t_objs s') = zlen (t_objs s)).
    { clear. induction ks as [|k ks IH]; intros s s' H; cbn [foldM] in H; [injection H as <-; done|]. binv H. rewrite (IH _ _ H). by apply (with_len s i k). }
    intros i' ks' j. rewrite H3, (Hlen _ _ _ H). apply Hl.
  - pose proof (setKids_spec _ _ _ _ H) as (_ & _ & H3). unfold setKids in H. destruct (known s ks) eqn:Ek; cbn [negb ubif] in H; [|done].
    binv H. binv H. apply wr_inv in E0 as [_ ->]. unfold declareAsNew in H. binv H. binv H. injection H as <-. apply wr_inv in E1 as [_ ->].
    intros i' ks' j. rewrite H3. cbn [t_objs]. rewrite !zlen_zset. destruct (i' =? i); [intros [= <-]; by apply known_spec|apply Hl].
  - unfold forceTimeOfThis in H. binv H. binv H. binv H. injection H as <-. apply rd_inv in E. apply wr_inv in E1 as [Hi ->].
    intros i' ks' j. rewrite (proj2 (label_zset s (t_glob s) i _ i' Hi)). cbn [t_objs]. rewrite zlen_zset. destruct (Z.eqb_spec i' i) as [->|]; [|apply Hl].
    simpl. intros [=<-]. apply (Hl i). unfold kids. rewrite E. done.
Qed.
Lemma run_linked cs : forall s s', run s cs = Ok s' -> linked s -> linked s'.
Proof.
  induction cs as [|c cs IH]; intros s s' H Hv; cbn in H; [injection H as <-; done|]. binv H. apply (IH a); [done|]. by apply (step_linked s c).
Qed.
Lemma start_linked : linked tstart.
Proof. intros i ks j. unfold kids. simpl. rewrite zlook_nil. done. Qed.

(** the reference *)
Lemma timeOf_spec s i t : timeOf s i = Ok t -> label s i = Some t.
Proof. unfold timeOf. intros H. binv H. injection H as <-. apply rd_inv in E. unfold label. rewrite E. done. Qed.
Lemma takes_spec s i s' o : takes_reference s i s' o -> exists t, updateTime s i = Ok s' /\ label s' i = Some t /\ o = (Some i, Some t).
Proof.
  assert (Hgen : forall o, (let* s := updateTime s i in let* t := timeOf s i in Ok (s, (Some i, Some t))) = Ok (s', o) ->
    exists t, updateTime s i = Ok s' /\ label s' i = Some t /\ o = (Some i, Some t)).
  { intros o' H. binv H. binv H. injection H as <- <-. apply timeOf_spec in E0. eauto. }
  intros [H|[[r H]|[o0 H]]].
  - apply Hgen. exact H.
  - apply Hgen. unfold resetState in H. cbn [fst] in H. destruct (updateTime s i) as [a| | |]; cbn [bind] in *; try done. destruct (timeOf a i) as [t| | |]; cbn [bind] in *; try done. inversion H; subst. done.
  - apply Hgen. unfold keepTrackOfNewTL in H. destruct (bool_decide _); [done|]. destruct (updateTime s i) as [a| | |]; cbn [bind] in *; try done. destruct (timeOf a i) as [t| | |]; cbn [bind] in *; try done. inversion H; subst. done.
Qed.

Section Watch.
  Context (i : Z) (ks : list Z) (ref : Z).
  Definition untouched (s : tstate) : Prop := valid s /\ ref < t_glob s /\ label s i = Some ref /\ kids s i = Some ks /\
    forall j, j ∈ ks -> exists l, label s j = Some l /\ l <= ref /\ kids s j = Some [].
  Definition touched (s : tstate) : Prop := valid s /\ ref < t_glob s /\ (exists l, label s i = Some l /\ ref <= l) /\
    (forall j, j ∈ ks -> exists l, label s j = Some l) /\
    ((exists l, label s i = Some l /\ ref < l) \/ (kids s i = Some ks /\ exists j l, j ∈ ks /\ label s j = Some l /\ ref < l)).
  Definition notforced (c : tcmd) : Prop := forall j, j ∈ i :: ks -> ~ forces j c.

  Lemma untouched_step s c s' : untouched s -> notforced c -> tstep s c = Ok s' ->
    ((exists j, j ∈ i :: ks /\ modifies j c) -> touched s') /\ (~ (exists j, j ∈ i :: ks /\ modifies j c) -> untouched s').
  Proof.
    intros (Hv & Hg & Hi & Hk & Hks) Hf H.
    destruct (step_spec s c s' i ref H Hv Hi) as (Hv' & Hg' & li' & Hi' & Hle & Hm & Hnm). { apply Hf. left. }
    assert (Hkid : forall j, j ∈ ks -> exists l l', label s j = Some l /\ l <= ref /\ kids s j = Some [] /\ label s' j = Some l' /\
      (modifies j c -> l' = t_glob s) /\ (~ modifies j c -> l' = l /\ kids s' j = Some [])).
    { intros j Hj. destruct (Hks j Hj) as (l & K1 & K2 & K3).
      destruct (step_spec s c s' j l H Hv K1) as (_ & _ & lj' & M1 & M2 & M3 & M4). { apply Hf. by right. }
      exists l, lj'. split; [done|]. split; [done|]. split; [done|]. split; [done|]. split; [done|]. intros Hn. destruct (M4 Hn) as [M5 [M6|M6]].
      - split; [done|]. rewrite M5. done.
      - subst c. simpl in H. apply update_spec in H as (ks' & lj & l'' & P1 & P2 & P3 & _ & _ & _ & _ & (k & P8 & P8') & _).
        rewrite K3 in P1. injection P1 as <-. apply elem_of_list_singleton in P8 as ->. split; [congruence|]. rewrite M5. done. }
    split.
    - intros (j & Hj & Hmj). split; [done|]. split; [lia|]. split; [exists li'; done|]. split.
      { intros j' Hj'. destruct (Hkid j' Hj') as (l & l' & _ & _ & _ & K & _). eauto. }
      apply elem_of_cons in Hj as [->|Hj].
      + left. exists li'. split; [done|]. rewrite (Hm Hmj). done.
      + destruct (Hkid j Hj) as (l & l' & _ & _ & _ & K1 & K2 & _).
        destruct (decide (i = j)) as [->|Hne].
        { left. exists li'. split; [done|]. rewrite (Hm Hmj). done. }
        right. assert (Hnmi : ~ modifies i c). { destruct c; simpl in *; try done; congruence. }
        split; [rewrite (proj1 (Hnm Hnmi)); done|]. exists j, l'. split; [done|]. split; [done|]. rewrite (K2 Hmj). done.
    - intros Hno. assert (Hnmi : ~ modifies i c). { intros Hx. apply Hno. exists i. split; [left|done]. }
      split; [done|]. split; [lia|]. destruct (Hnm Hnmi) as [Hki Hli]. split; [|split; [rewrite Hki; done|]].
      + destruct Hli as [-> | ->]; [done|]. simpl in H. apply update_spec in H as (ks' & lj & l'' & P1 & P2 & P3 & _ & _ & _ & P7 & (k & P8 & P8') & _).
        rewrite Hk in P1. injection P1 as <-. rewrite Hi in P2. injection P2 as <-. rewrite P3. f_equal. apply elem_of_cons in P8 as [->|P8].
        * congruence.
        * destruct (Hks k P8) as (l & K1 & K2 & _). rewrite P8' in K1. injection K1 as ->. lia.
      + intros j Hj. destruct (Hkid j Hj) as (l & l' & K1 & K2 & K3 & K4 & _ & K5). destruct K5 as [-> K5].
        { intros Hx. apply Hno. exists j. split; [by right|done]. }
        exists l. done.
  Qed.
  Lemma touched_step s c s' : touched s -> notforced c -> tstep s c = Ok s' -> touched s'.
  Proof.
    intros (Hv & Hg & (li & Hi & Hle) & Hks & Ht) Hf H.
    destruct (step_spec s c s' i li H Hv Hi) as (Hv' & Hg' & li' & Hi' & Hle' & Hm & Hnm). { apply Hf. left. }
    split; [done|]. split; [lia|]. split; [exists li'; split; [done|lia]|]. split.
    { intros j Hj. destruct (Hks j Hj) as [l Hl]. destruct (step_spec s c s' j l H Hv Hl) as (_ & _ & l' & K & _). { apply Hf; by right. } eauto. }
    destruct Ht as [(l & Hl & Hlt)|(Hk & j & l & Hj & Hl & Hlt)].
    - left. exists li'. split; [done|]. rewrite Hi in Hl. injection Hl as <-. lia.
    - destruct (decide (modifies i c)) as [Hmi|Hmi].
      { left. exists li'. split; [done|]. rewrite (Hm Hmi). done. }
      right. split; [rewrite (proj1 (Hnm Hmi)); done|].
      destruct (step_spec s c s' j l H Hv Hl) as (_ & _ & l' & K1 & K2 & _). { apply Hf; by right. }
      exists j, l'. split; [done|]. split; [done|]. lia.
  Qed.
  Lemma watch cs : forall s s', Forall notforced cs -> run s cs = Ok s' ->
    (touched s -> touched s') /\ (untouched s -> (Exists (fun c => exists j, j ∈ i :: ks /\ modifies j c) cs -> touched s') /\
      (~ Exists (fun c => exists j, j ∈ i :: ks /\ modifies j c) cs -> untouched s')).
  Proof.
    induction cs as [|c cs IH]; intros s s' Hf H; cbn in H.
    - injection H as <-. split; [done|]. intros Hu. split; [intros Hx; inversion Hx|done].
    - apply Forall_cons in Hf as [Hc Hf]. binv H. destruct (IH a s' Hf H) as [IH1 IH2]. split.
      + intros Ht. apply IH1. by apply (touched_step s c).
      + intros Hu. destruct (untouched_step s c a Hu Hc E) as [U1 U2]. split.
        * intros Hx. apply Exists_cons in Hx as [Hx|Hx]; [by apply IH1, U1|].
          destruct (decide (Exists (fun j => modifies j c) (i :: ks))) as [He|He].
          -- apply IH1, U1. apply Exists_exists in He. exact He.
          -- apply IH2; [|done]. apply U2. intros He'. apply He, Exists_exists, He'.
        * intros Hx. apply IH2; [apply U2|]; intros He; apply Hx; apply Exists_cons; auto.
  Qed.
End Watch.

(** updateTime runs as soon as the objects exist *)
Lemma with_ok s i j li lj : label s i = Some li -> label s j = Some lj -> exists s', updateTimeWith s i j = Ok s'.
Proof.
  unfold label. intros Hi Hj. destruct (t_objs s @ i) as [oi|] eqn:Ei; [|done]. destruct (t_objs s @ j) as [oj|] eqn:Ej; [|done].
  unfold updateTimeWith, rd. rewrite Ei, Ej. cbn [bind]. destruct (_ <? _); [|eauto]. unfold wr. pose proof (zlook_Some_lt _ _ _ Ei).
  replace ((0 <=? i) && (i <? zlen (t_objs s))) with true by lia. cbn [bind]. eauto.
Qed.
Lemma fold_ok ks : forall s i li, label s i = Some li -> (forall j, j ∈ ks -> exists l, label s j = Some l) ->
  exists s', foldM (fun s j => updateTimeWith s i j) ks s = Ok s'.
Proof.
  induction ks as [|k ks IH]; intros s i li Hi Hks; cbn [foldM]; [eauto|].
  destruct (Hks k ltac:(left)) as [lk Hk]. destruct (with_ok _ _ _ _ _ Hi Hk) as [s1 E]. rewrite E. cbn [bind].
  apply with_spec in E as (_ & (? & ? & _ & _ & E1) & E2 & _). apply (IH s1 i _ E1). intros j Hj.
  destruct (Z.eq_dec j i) as [->|Hne]; [eauto|]. rewrite E2 by done. apply Hks. by right.
Qed.
Lemma update_ok s i li ks : label s i = Some li -> kids s i = Some ks -> (forall j, j ∈ ks -> exists l, label s j = Some l) ->
  exists s', updateTime s i = Ok s'.
Proof.
  intros Hi Hk Hks. unfold updateTime, kids, label in *. destruct (t_objs s @ i) as [o|] eqn:E; [|done]. injection Hk as <-.
  unfold rd. rewrite E. cbn [bind]. apply (fold_ok _ s i li); [|done]. unfold label. rewrite E. done.
Qed.

Lemma check_iff s i ref s1 : updateTime s i = Ok s1 -> exists l, label s1 i = Some l /\
  checkConst s (Some i, Some ref) = (if l =? ref then Ok s1 else Throw).
Proof.
  intros H. pose proof H as H'. apply update_spec in H' as (ks & li & l & _ & _ & Hl & _). exists l. split; [done|].
  unfold checkConst. cbn [fst snd]. rewrite H. cbn [bind]. unfold timeOf. unfold label in Hl. destruct (t_objs s1 @ i) as [o|] eqn:E; [|done].
  unfold rd. rewrite E. injection Hl as <-. cbn [bind]. destruct (Z.eqb_spec (t_time o) ref) as [->|Hne].
  - rewrite bool_decide_true by done. done.
  - rewrite bool_decide_false by congruence. done.
Qed.

Lemma overseer_ok cs0 s0 i ks s1 o cs s2 :
  run tstart cs0 = Ok s0 -> kids s0 i = Some ks -> (forall j, j ∈ ks -> kids s0 j = Some []) ->
  takes_reference s0 i s1 o -> Forall (fun c => forall j, j ∈ i :: ks -> ~ forces j c) cs -> run s1 cs = Ok s2 ->
  (checkConst s2 o = Throw <-> exists c j, c ∈ cs /\ j ∈ i :: ks /\ modifies j c) /\
  (~ (exists c j, c ∈ cs /\ j ∈ i :: ks /\ modifies j c) -> exists s3, checkConst s2 o = Ok s3).
Proof.
  intros Hr Hk Hks Ht Hf Hrun. pose proof (run_valid _ _ _ Hr start_valid) as Hv. apply takes_spec in Ht as (ref & Hu & Href & ->). pose proof Hu as Hu0.
  apply update_spec in Hu as (ks' & li & l' & P1 & P2 & P3 & P4 & P5 & P6 & P7 & (k & P8 & P8') & P9).
  rewrite Hk in P1. injection P1 as <-. rewrite Href in P3. injection P3 as <-.
  assert (Hlk2 : linked s2).
  { apply (run_linked cs s1); [done|]. apply (step_linked s0 (TUpdate i)); [exact Hu0|]. apply (run_linked cs0 tstart); [done|apply start_linked]. }
  assert (Hun : untouched i ks ref s1).
  { assert (Hv1 : valid s1).
    { intros j l Hj. rewrite P4. destruct (Z.eq_dec j i) as [->|Hne]; [rewrite Href in Hj; injection Hj as <-; by apply (Hv k)|].
      rewrite P5 in Hj by done. by apply (Hv j). }
    split; [done|]. split; [by apply (Hv1 i)|]. split; [done|]. split; [rewrite P6; done|]. intros j Hj. pose proof (Hks j Hj) as Hkj.
    destruct (t_objs s0 @ j) as [oj|] eqn:Ej; [|unfold kids in Hkj; rewrite Ej in Hkj; done].
    destruct (Z.eq_dec j i) as [->|Hne]; [exists ref; split; [done|split; [lia|rewrite P6; done]]|].
    exists (t_time oj). assert (Hlj : label s0 j = Some (t_time oj)) by (unfold label; rewrite Ej; done).
    rewrite P5, P6 by done. split; [done|]. split; [|done]. apply (P9 j); [by right|done]. }
  destruct (watch i ks ref cs s1 s2 Hf Hrun) as [_ Hw]. destruct (Hw Hun) as [W1 W2].
  assert (Hex : Exists (fun c => exists j, j ∈ i :: ks /\ modifies j c) cs <-> exists c j, c ∈ cs /\ j ∈ i :: ks /\ modifies j c).
  { rewrite Exists_exists. split; [intros (c & Hc & j & H); eauto|intros (c & j & Hc & H); eauto]. }
  assert (Hpos : Exists (fun c => exists j, j ∈ i :: ks /\ modifies j c) cs -> checkConst s2 (Some i, Some ref) = Throw).
  { intros He. destruct (W1 He) as (Hv2 & Hg2 & (l & Hl & Hle) & Hkl & Hor).
    destruct (kids s2 i) as [ks2|] eqn:Ek2.
    2:{ unfold kids, label in *. destruct (t_objs s2 @ i); done. }
    destruct (update_ok s2 i l ks2 Hl Ek2) as [s3 Hu3].
    { intros j Hj. destruct (Hlk2 _ _ _ Ek2 Hj) as [Ha Hb]. unfold label. destruct (t_objs s2 @ j) eqn:E; [eauto|]. apply zlook_None in E. lia. }
    destruct (check_iff s2 i ref s3 Hu3) as (l3 & Hl3 & ->).
    apply update_spec in Hu3 as (ks3 & li3 & l4 & Q1 & Q2 & Q3 & _ & _ & _ & Q7 & _ & Q9).
    rewrite Ek2 in Q1. injection Q1 as <-. rewrite Hl3 in Q3. injection Q3 as <-.
    assert (ref < l3); [|replace (l3 =? ref) with false by lia; done].
    destruct Hor as [(l5 & R1 & R2)|(R1 & j & l5 & R2 & R3 & R4)].
    - assert (l5 <= l3); [|lia]. apply (Q9 i); [left|done].
    - injection R1 as ->. assert (l5 <= l3); [|lia]. apply (Q9 j); [by right|done]. }
  assert (Hneg : ~ Exists (fun c => exists j, j ∈ i :: ks /\ modifies j c) cs -> exists s3, checkConst s2 (Some i, Some ref) = Ok s3).
  { intros He. destruct (W2 He) as (Hv2 & Hg2 & Hl2 & Hk2 & Hks2).
    destruct (update_ok s2 i ref ks Hl2 Hk2) as [s3 Hu3]. { intros j Hj. destruct (Hks2 j Hj) as (l & ? & _). eauto. }
    destruct (check_iff s2 i ref s3 Hu3) as (l & Hl & ->).
    apply update_spec in Hu3 as (ks3 & li3 & l3 & Q1 & Q2 & Q3 & _ & _ & _ & Q7 & (k3 & Q8 & Q8') & _).
    rewrite Hk2 in Q1. injection Q1 as <-. rewrite Hl in Q3. injection Q3 as <-.
    assert (l = ref).
    { apply elem_of_cons in Q8 as [->|Q8]; [congruence|]. destruct (Hks2 k3 Q8) as (l4 & R1 & R2 & _). rewrite Q8' in R1. injection R1 as ->.
      rewrite Hl2 in Q2. injection Q2 as <-. lia. }
    subst l. rewrite Z.eqb_refl. eauto. }
  split; [|rewrite <- Hex; exact Hneg]. rewrite <- Hex. split; [|exact Hpos].
  intros Hc. destruct (decide (Exists (fun c => Exists (fun j => modifies j c) (i :: ks)) cs)) as [He|He].
  - eapply Exists_impl; [exact He|]. intros c Hx. apply Exists_exists in Hx. exact Hx.
  - destruct Hneg as [s3 Hs3]; [|congruence]. intros Hx. apply He. eapply Exists_impl; [exact Hx|]. intros c Hy. apply Exists_exists. exact Hy.
Qed.

Lemma updateTime_ok s i s' : updateTime s i = Ok s' ->
  exists ks li l', kids s i = Some ks /\ label s i = Some li /\ label s' i = Some l' /\ li <= l' /\
    (exists j, j ∈ i :: ks /\ label s j = Some l') /\ (forall j lj, j ∈ i :: ks -> label s j = Some lj -> lj <= l') /\
    (forall j, j <> i -> label s' j = label s j).
Proof.
  intros H. destruct (update_spec s i s' H) as (ks & li & l' & K1 & K2 & K3 & _ & K5 & _ & K7 & K8 & K9). exists ks, li, l'. split_and!; done.
Qed.
Lemma null_ok s (o : overseer) : overseerNew s None = Throw /\ (o.1 = None -> checkConst s o = Throw) /\
  (forall s' o' b, keepTrackOfNewTL s o None = Ok (s', o', b) -> checkConst s' o' = Throw).
Proof.
  split; [done|]. split; [intros H; unfold checkConst; rewrite H; done|]. intros s' o' b. unfold keepTrackOfNewTL.
  case_bool_decide as E; intros H; inversion H; subst; [|done]. unfold checkConst. destruct o' as [[?|] ?]; done.
Qed.
