From Coq Require Import ZifyBool ZifyNat.
From Verif Require Import Base DataArray IndexSpec FillLib TreeModel.
Local Open Scope Z_scope.

(** * The groups of findCommonTuples *)
Section Groups.
Context (n limit : Z) (N : Z -> Z -> Prop) (es : Z -> list Z).
Hypothesis Hes : forall i, 0 <= i < n -> NoDup (es i) /\ forall e, e ∈ es i <-> 0 <= e < n /\ N i e.

Definition others (h : Z) : list Z := List.filter (fun e => negb (e =? h) && (limit <=? e)) (es h).
Definition group (h : Z) : list (list Z) := match others h with [] => [] | o => [h :: o] end.
Lemma elem_others h e : 0 <= h < n -> e ∈ others h <-> 0 <= e < n /\ limit <= e /\ e <> h /\ N h e.
Proof.
  intros Hh. unfold others. rewrite elem_of_list_In, filter_In, <- elem_of_list_In. destruct (Hes h Hh) as [_ H]. rewrite H.
  split; [intros [[? ?] ?]|intros (? & ? & ? & ?)]; repeat split; try done; lia.
Qed.
Lemma NoDup_bfilter (f : Z -> bool) l : NoDup l -> NoDup (List.filter f l).
Proof. induction l as [|x l IH]; [done|]. intros [H1 H2]%NoDup_cons. cbn. destruct (f x); [|auto]. apply NoDup_cons. split; [|auto]. rewrite elem_of_list_In, filter_In, <- elem_of_list_In. tauto. Qed.
Lemma others_nodup h : 0 <= h < n -> NoDup (others h).
Proof. intros Hh. apply NoDup_bfilter. apply Hes; done. Qed.
Lemma single (l : list Z) x : x ∈ l -> zlen l <= 1 -> l = [x].
Proof. destruct l as [|a [|b l]]; intros H Hl; [set_solver| |]. - apply elem_of_list_singleton in H. by subst. - rewrite !zlen_cons in Hl. pose proof (zlen_nonneg l). lia. Qed.
Lemma inner i es' (d : list bool) acc : (forall e, e ∈ es' -> 0 <= e < zlen d) -> exists d',
  foldM (fun '(common, isDone) e => if negb (e =? i) && (limit <=? e) then let* isDone := wr isDone e true in Ok (common ++ [e], isDone) else Ok (common, isDone)) es' (acc, d) =
    Ok (acc ++ List.filter (fun e => negb (e =? i) && (limit <=? e)) es', d') /\ zlen d' = zlen d /\
  forall j, d' @ j = Some true <-> d @ j = Some true \/ j ∈ List.filter (fun e => negb (e =? i) && (limit <=? e)) es'.
Proof.
  revert d acc. induction es' as [|e es' IH]; intros d acc Hr; cbn [foldM List.filter].
  - exists d. rewrite app_nil_r. split; [done|]. split; [done|]. intros j. set_solver.
  - destruct (negb (e =? i) && (limit <=? e)) eqn:E; cbn [bind].
    + rewrite (wr_ok d e true) by (apply Hr; set_solver). cbn [bind]. destruct (IH (zset d e true) (acc ++ [e])) as (d' & E' & Hl & Hd).
      { intros e' He'. rewrite zlen_zset. apply Hr. set_solver. }
      exists d'. rewrite E'. rewrite <- app_assoc. split; [done|]. rewrite zlen_zset in Hl. split; [done|]. intros j. rewrite Hd, zlook_zset by (apply Hr; set_solver).
      rewrite elem_of_cons. destruct (Z.eqb_spec j e) as [->|Hje]; [tauto|]. split; [intros [?|?]; tauto|]. intros [?|[?|?]]; tauto.
    + apply IH. set_solver.
Qed.

Definition cut (us : list Z) (j : Z) : Prop := limit <= j /\ exists h, h ∈ us /\ h < j /\ N h j.
Context (search : Z -> res (list Z)).
Hypothesis Hn : 0 <= n.
Hypothesis Hs : forall i, 0 <= i < n -> search i = Ok (es i).
Hypothesis Hrefl : forall i, 0 <= i < n -> N i i.
Lemma groups_ok : exists us, StronglySorted Z.lt us /\ (forall j, j ∈ us <-> 0 <= j < n /\ ~ cut us j) /\
  (forall j, 0 <= j < n -> j ∈ us \/ cut us j) /\
  findCommonTuplesAlg search n limit = Ok (concat (flat_map group us), psums (zlen <$> flat_map group us)).
Proof.
  unfold findCommonTuplesAlg.
  set (INV := fun (i : Z) '((c, cI, d) : list Z * list Z * list bool) => exists us,
    StronglySorted Z.lt us /\ (forall j, j ∈ us <-> 0 <= j < i /\ ~ cut us j) /\ (forall j, 0 <= j < i -> j ∈ us \/ cut us j) /\
    c = concat (flat_map group us) /\ cI = psums (zlen <$> flat_map group us) /\ zlen d = n /\
    forall j, d @ j = Some true <-> 0 <= j < n /\ limit <= j /\ exists h, h ∈ us /\ h <> j /\ N h j).
  match goal with |- context [forZ 0 n ?body ?s0] => assert (W : wp (forZ 0 n body s0) (INV n) False) end.
  { apply (wp_forZ INV); [done| | |].
    - exists []. split; [constructor|]. split; [intros j; split; [set_solver|lia]|]. split; [lia|]. split; [done|]. split; [done|]. split; [unfold zlen; rewrite replicate_length; lia|].
      intros j. split; [|intros (_ & _ & h & Hh & _); set_solver]. intros H. apply zlook_elem, elem_of_replicate in H. by destruct H.
    - intros i [[c cI] d] Hi (us & Hsort & Hus & Hor & -> & -> & Hl & Hd).
      destruct (zlook_lt d i ltac:(lia)) as [b Hb]. rewrite (rd_ok _ _ _ Hb). cbn [bind].
      assert (Hlt : forall h, h ∈ us -> 0 <= h < i) by (intros h Hh; apply Hus in Hh; tauto).
      destruct b.
      + exists us. apply Hd in Hb as (_ & Hlim & h & Hh & Hhi & HN). assert (Hc : cut us i). { split; [lia|]. exists h. pose proof (Hlt h Hh). split; [done|]. split; [lia|done]. }
        split; [done|]. split; [|split; [|done]].
        * intros j. rewrite Hus. split; [intros [? ?]; split; [lia|done]|]. intros [Hj Hnc]. split; [|done]. destruct (decide (j = i)) as [->|]; [done|lia].
        * intros j Hj. destruct (decide (j = i)) as [->|]; [by right|apply Hor; lia].
      + assert (Hnc : ~ cut us i). { intros (Hlim & h & Hh & Hhi & HN). assert (d @ i = Some true) by (apply Hd; split; [lia|]; split; [done|]; exists h; split; [done|]; split; [lia|done]). congruence. }
        assert (Hnc' : forall j, 0 <= j <= i -> cut (us ++ [i]) j <-> cut us j).
        { intros j Hj. unfold cut. split; intros (Hlim & h & Hh & Hhj & HN); (split; [done|]); exists h; (split; [|done]); [apply elem_of_app in Hh as [Hh|Hh%elem_of_list_singleton]; [done|lia]|set_solver]. }
        assert (A1 : StronglySorted Z.lt (us ++ [i])). { clear -Hsort Hlt. induction us as [|u us IH]; [repeat constructor|]. cbn. apply StronglySorted_inv in Hsort as [S1 S2]. constructor; [apply IH; [done|]; intros; apply Hlt; set_solver|].
          apply Forall_app. split; [done|]. constructor; [|done]. apply Hlt. set_solver. }
        assert (A2 : forall j, j ∈ us ++ [i] <-> 0 <= j < i + 1 /\ ~ cut (us ++ [i]) j).
        { intros j. rewrite elem_of_app, elem_of_list_singleton, Hus. split.
          - intros [[Hj Hx]| ->]; (split; [lia|]); rewrite Hnc' by lia; done.
          - intros [Hj Hx]. rewrite Hnc' in Hx by lia. destruct (decide (j = i)); [by right|left; split; [lia|done]]. }
        assert (A3 : forall j, 0 <= j < i + 1 -> j ∈ us ++ [i] \/ cut (us ++ [i]) j).
        { intros j Hj. rewrite Hnc' by lia. destruct (decide (j = i)) as [->|]; [left; set_solver|]. destruct (Hor j ltac:(lia)); [left; set_solver|by right]. }
        assert (HF : flat_map group (us ++ [i]) = flat_map group us ++ group i) by (rewrite flat_map_app; cbn; by rewrite app_nil_r).
        rewrite Hs by lia. cbn [bind]. destruct (Hes i ltac:(lia)) as [Hnd Hmem].
        assert (DD : forall d', zlen d' = n -> (forall j, d' @ j = Some true <-> d @ j = Some true \/ j ∈ others i) ->
          forall j, d' @ j = Some true <-> 0 <= j < n /\ limit <= j /\ exists h, h ∈ us ++ [i] /\ h <> j /\ N h j).
        { intros d' _ H j. rewrite H, Hd, elem_others by lia. split.
          - intros [(? & ? & h & Hh & ? & ?)|(? & ? & ? & ?)]; (split; [done|]); (split; [done|]); [exists h|exists i]; (split; [apply elem_of_app; first [by left|right; by apply elem_of_list_singleton]|]); split; done.
          - intros (? & ? & h & Hh & ? & ?). apply elem_of_app in Hh as [Hh|Hh%elem_of_list_singleton]; [left|right; subst h]; (split; [done|]); (split; [done|]); [exists h; done|split; done]. }
        destruct (Z.ltb_spec 1 (zlen (es i))) as [H1|H1].
        * destruct (inner i (es i) d []) as (d' & E & Hl' & Hd'); [intros e He; apply Hmem in He; lia|]. rewrite E. cbn [bind app]. fold (others i) in *.
          unfold group in HF at 3. destruct (others i) as [|o os] eqn:Eo; cbn [bind].
          -- exists (us ++ [i]). rewrite HF, app_nil_r. split; [done|]. split; [done|]. split; [done|]. split; [done|]. split; [done|]. split; [lia|]. apply DD; [lia|]. done.
          -- rewrite <- Eo in *. rewrite psums_len. replace (zlen (zlen <$> flat_map group us) + 1 - 1) with (zlen (zlen <$> flat_map group us)) by lia.
             rewrite (rd_ok _ _ _ (psums_end _)). cbn [bind]. exists (us ++ [i]). rewrite HF. split; [done|]. split; [done|]. split; [done|].
             split; [rewrite concat_app; cbn; by rewrite app_nil_r|]. split; [rewrite fmap_app; cbn; rewrite psums_snoc_eq; f_equal; f_equal; rewrite zlen_cons; lia|]. split; [lia|]. apply DD; [lia|]. done.
        * exists (us ++ [i]). assert (Ee : es i = [i]). { apply single; [|lia]. apply Hmem. split; [lia|apply Hrefl; lia]. }
          assert (Eo : others i = []) by (unfold others; rewrite Ee; cbn; by rewrite Z.eqb_refl). unfold group in HF at 3. rewrite Eo in HF. rewrite HF, app_nil_r.
          split; [done|]. split; [done|]. split; [done|]. split; [done|]. split; [done|]. split; [done|]. apply DD; [done|]. rewrite Eo. set_solver.
    - intros s H. done. }
  destruct (forZ _ _ _ _) as [[[c cI] d]| | |]; cbn in W; try done. cbn [bind]. destruct W as (us & S1 & S2 & S3 & -> & -> & _). exists us. done.
Qed.
End Groups.
