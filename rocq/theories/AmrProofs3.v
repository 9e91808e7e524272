From Verif Require Import Base DataArray ArrLib SearchSpec StdProofs StrModel StrSpec StrProofs StrProofs2 StrProofs4 ConnProofs ConnProofs2 AmrModel AmrSpec AmrProofs AmrProofs2.
From Coq Require Import ZifyBool ZifyNat.

(** The indices of the steps whose destination is [d]. *)
Fixpoint srcs (d : Z) (l : list (option (Z * bool))) (k : Z) : list Z :=
  match l with [] => [] | Some (e, _) :: l => if e =? d then k :: srcs d l (k + 1) else srcs d l (k + 1) | None :: l => srcs d l (k + 1) end.
Lemma srcs_snoc d l o k : srcs d (l ++ [o]) k = srcs d l k ++ (match o with Some (e, _) => if e =? d then [k + zlen l] else [] | None => [] end).
Proof.
  revert k. induction l as [|[[e ag]|] l IH]; intros k; simpl app.
  - cbn [srcs]. rewrite zlen_nil, Z.add_0_r. destruct o as [[e ?]|]; [destruct (e =? d)|]; done.
  - cbn [srcs]. rewrite IH, zlen_cons. replace (k + 1 + zlen l) with (k + (1 + zlen l)) by lia. by destruct (e =? d).
  - cbn [srcs]. rewrite IH, zlen_cons. replace (k + 1 + zlen l) with (k + (1 + zlen l)) by lia. done.
Qed.
Lemma srcs_elem d l k i : i ∈ srcs d l k <-> exists ag, l @ (i - k) = Some (Some (d, ag)).
Proof.
  revert k. induction l as [|o l IH]; intros k; cbn [srcs].
  - split; [intros H; by apply elem_of_nil in H|]. intros [ag H]. by rewrite zlook_nil in H.
  - assert (i ∈ srcs d l (k + 1) <-> i <> k /\ exists ag, (o :: l) @ (i - k) = Some (Some (d, ag))) as H.
    { rewrite IH. split.
      - intros [ag H]. pose proof (zlook_Some_lt _ _ _ H). split; [lia|]. exists ag. rewrite zlook_cons by lia. replace (i - k =? 0) with false by lia. rewrite <- H. f_equal. lia.
      - intros [Hne [ag H]]. exists ag. pose proof (zlook_Some_lt _ _ _ H). rewrite zlook_cons in H by lia. replace (i - k =? 0) with false in H by lia. rewrite <- H. f_equal. lia. }
    destruct o as [[e ag]|]; [destruct (e =? d) eqn:E|].
    + rewrite elem_of_cons, H. apply Z.eqb_eq in E as ->. split; [intros [->|[_ H']]; [|done]|].
      * exists ag. rewrite Z.sub_diag. done.
      * intros H'. destruct (decide (i = k)); [by left|]. right. done.
    + rewrite H. split; [tauto|]. intros [ag' H']. split; [|by exists ag']. intros ->. rewrite Z.sub_diag in H'. cbn in H'. injection H' as -> ->. lia.
    + rewrite H. split; [tauto|]. intros [ag' H']. split; [|by exists ag']. intros ->. rewrite Z.sub_diag in H'. done.
Qed.
Lemma srcs_inc d l k : increasing (srcs d l k).
Proof.
  apply increasing_SS. revert k. induction l as [|o l IH]; intros k; [constructor|]. cbn [srcs].
  destruct o as [[e ag]|]; [destruct (e =? d)|]; [|apply IH..]. constructor; [apply IH|]. apply Forall_forall. intros i Hi. apply srcs_elem in Hi as [ag' H]. apply zlook_Some_lt in H. lia.
Qed.
Lemma srcs_enum d l : enumerates (fun i => exists ag, l @ i = Some (Some (d, ag))) (srcs d l 0).
Proof. split; [apply srcs_inc|]. intros i. rewrite srcs_elem. by rewrite Z.sub_0_r. Qed.

Lemma sum_up_snoc {A} (plus : A -> A -> A) l x : sum_up plus (l ++ [x]) = Some (match sum_up plus l with Some v => plus x v | None => x end).
Proof. destruct l as [|y l]; [done|]. cbn. by rewrite foldl_app. Qed.
Section scatter.
Context {A : Type} (plus : A -> A -> A) (nc : Z) (inp : list A).
Definition value (out : list A) (d c : Z) (l : list (option (Z * bool))) : option A :=
  match sum_up plus (omap (fun i => inp @ (i * nc + c)) (srcs d l 0)) with Some v => Some v | None => out @ (d * nc + c) end.
Definition ordered (nout : Z) (l : list (option (Z * bool))) : Prop :=
  forall i d ag, l @ i = Some (Some (d, ag)) -> 0 <= d < nout /\ (ag = true <-> exists j ag', j < i /\ l @ j = Some (Some (d, ag'))).
Lemma scatter nout l out : 0 <= nc -> zlen out = nout * nc -> zlen l * nc <= zlen inp -> ordered nout l ->
  exists out', foldM (FC plus nc inp) l (out, 0) = Ok (out', zlen l) /\ zlen out' = zlen out /\ forall d c, 0 <= d < nout -> 0 <= c < nc -> out' @ (d * nc + c) = value out d c l.
Proof.
  intros Hnc Ho Hi Hord.
  assert (exists s, foldM (FC plus nc inp) l (out, 0) = Ok s /\ s.2 = zlen l /\ zlen s.1 = zlen out /\ forall d c, 0 <= d < nout -> 0 <= c < nc -> s.1 @ (d * nc + c) = value out d c l) as ([o p] & H1 & H2 & H3); [|simpl in *; subst p; by exists o].
  apply wp_ok.
  apply (wp_foldM _ (fun pre s => s.2 = zlen pre /\ zlen s.1 = zlen out /\ forall d c, 0 <= d < nout -> 0 <= c < nc -> s.1 @ (d * nc + c) = value out d c pre)).
  - split; [done|]. split; [done|]. intros d c Hd Hc. done.
  - intros pre o post [out1 ip] Hl (Hip & Hlen & Hv). simpl in Hip, Hlen, Hv. subst ip.
    assert (l @ zlen pre = Some o) as Hlook. { rewrite Hl. rewrite zlook_app_r by lia. rewrite Z.sub_diag. done. }
    pose proof (zlook_Some_lt _ _ _ Hlook) as Hlt. assert ((zlen pre + 1) * nc <= zlen inp) as Hin by nia.
    destruct o as [[e ag]|]; cbn [FC].
    + destruct (Hord _ _ _ Hlook) as [He Hag]. cbn [acc].
      assert (forall d, d <> e -> srcs d (pre ++ [Some (e, ag)]) 0 = srcs d pre 0) as Hne. { intros d Hd. rewrite srcs_snoc. replace (e =? d) with false by lia. by rewrite app_nil_r. }
      assert (srcs e (pre ++ [Some (e, ag)]) 0 = srcs e pre 0 ++ [zlen pre]) as Heq. { rewrite srcs_snoc, Z.eqb_refl. done. }
      assert (forall c, 0 <= c < nc -> exists x, inp @ (zlen pre * nc + c) = Some x) as Hx. { intros c Hc. apply zlook_lt. nia. }
      assert (forall c, 0 <= c < nc -> exists x, inp @ (zlen pre * nc + c) = Some x /\ omap (fun i => inp @ (i * nc + c)) (srcs e (pre ++ [Some (e, ag)]) 0) = omap (fun i => inp @ (i * nc + c)) (srcs e pre 0) ++ [x]) as Hx'.
      { intros c Hc. destruct (Hx c Hc) as [x Ex]. exists x. split; [done|]. rewrite Heq, omap_app. f_equal. cbn. by rewrite Ex. }
      destruct ag.
      * destruct (addT_ok plus nc inp (zlen pre) out1 e) as (out2 & -> & Hl2 & H2); [lia|lia|done|lia|nia|]. cbn [bind wp]. simpl fst. simpl snd. split; [rewrite zlen_app; done|]. split; [lia|].
        intros d c Hd Hc. rewrite H2. destruct (decide (d = e)) as [->|Hd'].
        -- replace ((e * nc <=? e * nc + c) && (e * nc + c <? (e + 1) * nc)) with true by lia. replace (zlen pre * nc + (e * nc + c - e * nc)) with (zlen pre * nc + c) by lia.
           destruct (Hx' c Hc) as (x & Ex & E). rewrite Ex. cbn [mbind option_bind]. rewrite Hv by lia. unfold value. rewrite E, sum_up_snoc.
           destruct Hag as [Hag _]. destruct (Hag eq_refl) as (j & ag' & Hj & Hlj). rewrite Hl in Hlj. rewrite zlook_app_l in Hlj by lia.
           assert (j ∈ srcs e pre 0) as Hjs by (apply srcs_elem; rewrite Z.sub_0_r; by exists ag'). pose proof (zlook_Some_lt _ _ _ Hlj). destruct (zlook_lt inp (j * nc + c)) as [y Hy]; [nia|].
           assert (y ∈ omap (fun i => inp @ (i * nc + c)) (srcs e pre 0)) as Hin' by (apply elem_of_list_omap; by exists j). destruct (omap _ (srcs e pre 0)); [by apply elem_of_nil in Hin'|]. done.
        -- replace ((e * nc <=? d * nc + c) && (d * nc + c <? (e + 1) * nc)) with false by nia. rewrite Hv by lia. unfold value. rewrite Hne by done. done.
      * destruct (cpT_ok nc inp (zlen pre) out1 e) as (out2 & -> & Hl2 & H2); [lia|lia|done|lia|nia|]. cbn [bind wp]. simpl fst. simpl snd. split; [rewrite zlen_app; done|]. split; [lia|].
        intros d c Hd Hc. rewrite H2. destruct (decide (d = e)) as [->|Hd'].
        -- replace ((e * nc <=? e * nc + c) && (e * nc + c <? (e + 1) * nc)) with true by lia. replace (zlen pre * nc + (e * nc + c - e * nc)) with (zlen pre * nc + c) by lia.
           destruct (Hx' c Hc) as (x & Ex & E). rewrite Ex. unfold value. rewrite E, sum_up_snoc.
           destruct (srcs e pre 0) as [|j r] eqn:Es; [done|]. assert (j ∈ srcs e pre 0) as Hj by (rewrite Es; left). apply srcs_elem in Hj as [ag' Hj]. rewrite Z.sub_0_r in Hj. pose proof (zlook_Some_lt _ _ _ Hj).
           destruct Hag as [_ Hag]. discriminate Hag. exists j, ag'. split; [lia|]. rewrite Hl. rewrite zlook_app_l by lia. done.
        -- replace ((e * nc <=? d * nc + c) && (d * nc + c <? (e + 1) * nc)) with false by nia. rewrite Hv by lia. unfold value. rewrite Hne by done. done.
    + cbn [wp skip]. simpl fst. simpl snd. split; [rewrite zlen_app; done|]. split; [done|]. intros d c Hd Hc. rewrite Hv by done. unfold value. rewrite srcs_snoc, app_nil_r. done.
  - intros s H. exact H.
Qed.
End scatter.
