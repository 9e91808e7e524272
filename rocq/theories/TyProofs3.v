(** Sort of the cells by type. *)
From Coq Require Import QArith ZifyBool ZifyNat.
From Verif Require Import Base DataArray ArrLib StdModel StdProofs FillLib RenumSpec RenumModel RenumProofs SetsModel SetsProofs PermProofs SkyModel SkyProofs SkyProofs3 IndexSpec IndexProofs3 IndexProofs6 CellTable UmModel UmSpec UmProofs UmProofs2 UmProofs8 UmProofs10 UcModel UcProofs3 UcProofs5 TyModel TySpec TyProofs TyProofs2.
Local Open Scope Z_scope.

Lemma findpos order t : let p := find_if (fun x => x =? t) order in (p = zlen order <-> t ∉ order) /\ (p <> zlen order -> first_pos order t p) /\ 0 <= p <= zlen order.
Proof.
  cbv zeta. destruct (find_if_spec (fun x => x =? t) order) as (H1 & H2 & H3). set (p := find_if _ order) in *. split; [|split; [|done]].
  - split.
    + intros Hp Ht. apply elem_of_zlook in Ht as [k Hk]. pose proof (zlook_Some_lt _ _ _ Hk). specialize (H2 k t ltac:(lia) Hk). lia.
    + intros Ht. destruct (decide (p = zlen order)); [done|]. destruct H3 as (v & Hv & Hp); [lia|]. apply zlook_elem in Hv. assert (v = t) as -> by lia. tauto.
  - intros Hp. destruct H3 as (v & Hv & Hq); [lia|]. assert (v = t) as -> by lia. split; [done|]. intros k Hk Hkt. specialize (H2 k t Hk Hkt). lia.
Qed.
Lemma first_pos_uniq {A} (l : list A) x p q : first_pos l x p -> first_pos l x q -> p = q.
Proof. intros [H1 H2] [H3 H4]. destruct (Z.lt_trichotomy p q) as [L|[|L]]; [exfalso; apply (H4 p L H1)|done|exfalso; apply (H2 q L H3)]. Qed.
Lemma first_pos_val {A} (l : list A) x y p : first_pos l x p -> first_pos l y p -> x = y.
Proof. intros [H1 _] [H2 _]. congruence. Qed.
Lemma first_pos_ge {A} (l : list A) x p : first_pos l x p -> 0 <= p < zlen l.
Proof. intros [H _]. apply zlook_Some_lt in H. done. Qed.

Lemma order_ok m cells order : stores m cells -> is_Some (um_coords m) -> exists b, checkConsecutiveCellTypesAndOrder m order = Ok b /\ (b = true <-> contiguous (kinds cells) /\ in_order order (kinds cells)).
Proof.
  intros Hs [co Eco]. destruct (stores_get m cells Hs) as (conn & connI & Ec & EI & Hsky & _). unfold checkConsecutiveCellTypesAndOrder, checkFullyDefined. rewrite Ec, EI, Eco, (numCells_ok m cells Hs). cbn [bind]. rewrite <- (zlen_kinds cells).
  destruct (Z.eqb_spec (zlen (kinds cells)) 0) as [E0|E0].
  { exists true. split; [done|]. split; [|done]. intros _. apply SkyProofs3.zlen_0 in E0. rewrite E0. split; [intros i j k t _ H|intros i j s t p q _ H]; rewrite zlook_nil in H; done. }
  match goal with |- context [onRuns _ ?b ?s] => assert (W : wp (onRuns (zlen (kinds cells)) b s) (fun r => r.1 <> None <-> contiguous (kinds cells) /\ in_order order (kinds cells)) False) end.
  { apply (wp_onRuns (kinds cells) (fun pre st => NoDup pre.*1 /\ (forall t, t ∈ st.2 <-> t ∈ pre.*1 /\ t ∉ order) /\ (forall x p, x ∈ pre.*1 -> first_pos order x p -> p <= st.1) /\
      (st.1 = -1 \/ exists x, x ∈ pre.*1 /\ first_pos order x st.1) /\ forall i j s t p q, i < j -> pre.*1 @ i = Some s -> pre.*1 @ j = Some t -> first_pos order s p -> first_pos order t q -> p < q)).
    - cbn [fst snd fmap list_fmap]. split; [constructor|]. split; [intros t; split; [intros H; apply elem_of_nil in H; done|intros [H _]; apply elem_of_nil in H; done]|]. split; [intros x p H; apply elem_of_nil in H; done|]. split; [tauto|]. intros i j s t p q _ H. rewrite zlook_nil in H. done.
    - intros pre t n post [lastPos sg] E (H1 & H2 & H3 & H4 & H5). cbn [fst snd] in *. rewrite (run_type _ _ _ Hsky _ _ _ _ E). cbn [bind]. destruct (findpos order t) as (P1 & P2 & P3). set (pos := find_if _ order) in *.
      assert (Hadd : forall lp, t ∉ pre.*1 -> (forall p, first_pos order t p -> lastPos < p) -> (forall x p, x ∈ pre.*1 ++ [t] -> first_pos order x p -> p <= lp) -> (lp = -1 \/ exists x, x ∈ pre.*1 ++ [t] /\ first_pos order x lp) ->
        NoDup (pre.*1 ++ [t]) /\ (forall i j s t0 p q, i < j -> (pre.*1 ++ [t]) @ i = Some s -> (pre.*1 ++ [t]) @ j = Some t0 -> first_pos order s p -> first_pos order t0 q -> p < q)).
      { intros lp Hn Hg _ _. split; [apply NoDup_app; split; [done|]; split; [|apply NoDup_singleton]; intros u Hu Ht; apply elem_of_list_singleton in Ht; congruence|].
        intros i j s u p q Hij Hi Hj Hp Hq. pose proof (zlook_Some_lt _ _ _ Hj) as Hjl. rewrite zlen_app in Hjl. change (zlen [t]) with 1 in Hjl. pose proof (zlook_Some_lt _ _ _ Hi). rewrite zlook_app_l in Hi by lia. destruct (decide (j = zlen pre.*1)) as [->|].
        - rewrite zlook_app_r in Hj by lia. rewrite Z.sub_diag in Hj. injection Hj as <-. specialize (Hg q Hq). specialize (H3 s p ltac:(eapply zlook_elem; exact Hi) Hp). lia.
        - rewrite zlook_app_l in Hj by lia. eapply H5; [|exact Hi|exact Hj|done|done]. lia. }
      destruct (Z.eqb_spec pos (zlen order)) as [Ep|Ep]; cbn [negb].
      + assert (Ht : t ∉ order) by tauto. assert (Hno : forall p, ~ first_pos order t p). { intros p [Hp _]. apply zlook_elem in Hp. tauto. }
        destruct (smem t sg) eqn:Em; cbn [negb].
        * cbn [wp fst snd]. apply smem_spec, H2 in Em. split; [done|]. intros [Hc _]. exfalso. eapply again_not_contig; [exact E|apply Em|exact Hc].
        * assert (Hn : t ∉ pre.*1). { intros H. assert (t ∈ sg) as Hsg by (apply H2; done). apply smem_spec in Hsg. congruence. }
          rewrite zlen_kinds, (findOther_ok _ _ _ Hsky _ _ _ _ E). cbn [bind wp fst snd]. split; [done|]. rewrite fmap_app. change ([(t, n)].*1) with [t].
          assert (H3' : forall x p, x ∈ pre.*1 ++ [t] -> first_pos order x p -> p <= lastPos). { intros x p Hx Hp. apply elem_of_app in Hx as [Hx|Hx]; [eauto|]. apply elem_of_list_singleton in Hx as ->. exfalso. eapply Hno; eauto. }
          assert (H4' : lastPos = -1 \/ exists x, x ∈ pre.*1 ++ [t] /\ first_pos order x lastPos). { destruct H4 as [|(x & Hx & Hp)]; [tauto|]. right. exists x. split; [apply elem_of_app; tauto|done]. }
          destruct (Hadd lastPos Hn) as [A1 A2]; [intros p Hp; exfalso; eapply Hno; eauto|done|done|]. split; [done|]. split; [|split; [done|split; [done|done]]].
          intros u. rewrite elem_of_sins, H2, elem_of_app, elem_of_list_singleton. split; [intros [->|?]; tauto|]. intros [[?| ->] ?]; tauto.
      + specialize (P2 Ep). assert (Hin : t ∈ order) by (destruct P2 as [P2 _]; eapply zlook_elem; exact P2). destruct (Z.leb_spec pos lastPos) as [L|L].
        * cbn [wp fst snd]. split; [done|]. intros [Hc Ho]. exfalso. destruct H4 as [->|(x & Hx & Hp)]; [lia|]. assert (Hn : t ∉ pre.*1). { intros H. eapply again_not_contig; [exact E|exact H|exact Hc]. }
          apply (met_before _ _ _ _ _ E) in Hx as Hx'. destruct Hx' as (i & Hi & Hix). pose proof (run_pos _ _ _ _ _ E). pose proof (Ho i (size pre) x t lastPos pos ltac:(lia) Hix ltac:(apply (run_in _ _ _ _ _ E); lia) Hp P2).
          assert (lastPos = pos) as -> by lia. rewrite (first_pos_val _ _ _ _ Hp P2) in Hx. done.
        * rewrite zlen_kinds, (findOther_ok _ _ _ Hsky _ _ _ _ E). cbn [bind wp fst snd]. split; [done|]. rewrite fmap_app. change ([(t, n)].*1) with [t].
          assert (Hn : t ∉ pre.*1). { intros H. specialize (H3 t pos H P2). lia. }
          assert (H3' : forall x p, x ∈ pre.*1 ++ [t] -> first_pos order x p -> p <= pos). { intros x p Hx Hp. apply elem_of_app in Hx as [Hx|Hx]; [specialize (H3 x p Hx Hp); lia|]. apply elem_of_list_singleton in Hx as ->. rewrite (first_pos_uniq _ _ _ _ Hp P2). lia. }
          assert (H4' : pos = -1 \/ exists x, x ∈ pre.*1 ++ [t] /\ first_pos order x pos). { right. exists t. split; [apply elem_of_app; right; apply elem_of_list_singleton; done|done]. }
          destruct (Hadd pos Hn) as [A1 A2]; [intros p Hp; rewrite (first_pos_uniq _ _ _ _ Hp P2); lia|done|done|]. split; [done|]. split; [|split; [done|split; [done|done]]].
          intros u. rewrite H2, elem_of_app, elem_of_list_singleton. split; [tauto|]. intros [[?| ->] ?]; tauto.
    - intros [lastPos sg] (H1 & _ & _ & _ & H5). cbn [fst snd] in *. split; [|done]. intros _. split; [apply contig_runs; done|]. intros i j s t p q Hij Hi Hj Hp Hq. destruct (decide (s = t)) as [->|Hst]; [rewrite (first_pos_uniq _ _ _ _ Hp Hq); lia|].
      destruct (runs_pair _ _ _ _ _ Hij Hi Hj Hst) as (a & b & Hab & Ha & Hb). specialize (H5 a b s t p q Hab Ha Hb Hp Hq). lia. }
  apply wp_ok in W as ([o s] & -> & H). cbn [bind]. eexists. split; [reflexivity|]. rewrite <- H. cbn [fst]. destruct o; split; done.
Qed.

(** The position of the type of each cell. *)
Lemma number_zero l t : number l t = 0 <-> t ∉ l.
Proof. unfold number. rewrite elem_of_list_In. rewrite (count_occ_not_In Z.eq_dec). lia. Qed.
Lemma lev_wp m cells order : stores m cells -> wp (getLevArrPerCellTypes m order)
  (fun r => (forall t, t ∈ kinds cells -> t ∈ order) /\ zlen r.1 = zlen cells /\ (forall i t, kinds cells @ i = Some t -> exists p, r.1 @ i = Some p /\ first_pos order t p) /\
    zlen r.2 = zlen order /\ (forall t p, first_pos order t p -> r.2 @ p = Some (number (kinds cells) t)) /\ (forall t p, order @ p = Some t -> ~ first_pos order t p -> r.2 @ p = Some 0))
  (exists t, t ∈ kinds cells /\ t ∉ order).
Proof.
  intros Hs. destruct (stores_get m cells Hs) as (conn & connI & Ec & EI & Hsky & _). unfold getLevArrPerCellTypes, checkConnectivityFullyDefined. rewrite Ec, EI, (numCells_ok m cells Hs). cbn [bind].
  pose proof (zlen_nonneg cells). rewrite alloc_ok by lia. cbn [bind]. rewrite Z.mul_1_r. set (l := kinds cells).
  assert (Hl : zlen l = zlen cells) by apply zlen_kinds.
  wstep. eapply (wp_forZ (fun i '(tmp, tmp2) => exists lev, tmp = (Some <$> lev) ++ malloc Z (zlen cells - i) /\ zlen lev = i /\ (forall t, t ∈ take (Z.to_nat i) l -> t ∈ order) /\
    (forall k t, k < i -> l @ k = Some t -> exists p, lev @ k = Some p /\ first_pos order t p) /\
    zlen tmp2 = zlen order /\ (forall t p, first_pos order t p -> tmp2 @ p = Some (number (take (Z.to_nat i) l) t)) /\ (forall t p, order @ p = Some t -> ~ first_pos order t p -> tmp2 @ p = Some 0))); [lia| | |].
  - exists []. split; [rewrite Z.sub_0_r; done|]. split; [done|]. split; [intros t H'; apply elem_of_nil in H'; done|]. split; [intros k t Hk Ht; apply zlook_Some_lt in Ht; lia|]. split; [rewrite zlen_replicate; done|].
    split; [intros t p Hp; apply zlook_replicate; apply first_pos_ge in Hp; unfold zlen in Hp; lia|]. intros t p Hp _. apply zlook_replicate. apply zlook_Some_lt in Hp. unfold zlen in Hp. lia.
  - intros i [tmp tmp2] Hi (lev & -> & Hlev & Hin & Hpos & Hl2 & Hn1 & Hn2). destruct (zlook_lt l i) as [t Ht]; [lia|]. rewrite (typeAt_ok _ _ _ Hsky _ _ Ht). cbn [bind]. destruct (findpos order t) as (P1 & P2 & P3). set (pos := find_if _ order) in *.
    destruct (Z.eqb_spec pos (zlen order)) as [Ep|Ep]; cbn [ifthrow].
    { cbn [wp]. exists t. split; [eapply zlook_elem; exact Ht|tauto]. }
    specialize (P2 Ep). rewrite (rd_ok _ _ _ (Hn1 t pos P2)). cbn [bind]. rewrite wr_ok by lia. cbn [bind].
    rewrite (wrc_fill lev (zlen cells - i)) by lia. replace (zlen cells - i - 1) with (zlen cells - (i + 1)) by lia.
    cbn [bind wp]. exists (lev ++ [pos]). split; [done|]. split; [rewrite zlen_app; change (zlen [pos]) with 1; lia|]. rewrite (take_snoc_z _ _ _ Ht).
    assert (Hto : t ∈ order) by (destruct P2 as [P2 _]; eapply zlook_elem; exact P2). split; [intros u Hu; apply elem_of_app in Hu as [Hu|Hu]; [auto|]; apply elem_of_list_singleton in Hu as ->; done|]. split.
    + intros k u Hk Hu. destruct (decide (k = i)) as [->|].
      * assert (u = t) as -> by congruence. exists pos. split; [|done]. rewrite zlook_app_r by lia. rewrite Hlev, Z.sub_diag. done.
      * destruct (Hpos k u ltac:(lia) Hu) as (p & Hp & Hf). exists p. split; [|done]. rewrite zlook_app_l; [done|]. apply zlook_Some_lt in Hp. lia.
    + split; [rewrite zlen_zset; done|]. split.
      * intros u p Hp. pose proof (first_pos_ge _ _ _ Hp). rewrite zlook_zset by lia. rewrite number_snoc. destruct (Z.eqb_spec p pos) as [->|Hne].
        -- rewrite (first_pos_val _ _ _ _ P2 Hp). rewrite Z.eqb_refl. done.
        -- rewrite (Hn1 u p Hp). destruct (Z.eqb_spec t u) as [->|]; [rewrite (first_pos_uniq _ _ _ _ Hp P2) in Hne; done|]. f_equal. lia.
      * intros u p Hp Hnf. rewrite zlook_zset by lia. destruct (Z.eqb_spec p pos) as [->|]; [|eauto]. exfalso. apply Hnf. destruct P2 as [Q1 Q2]. assert (u = t) as -> by congruence. split; done.
  - intros [tmp tmp2] (lev & -> & Hlev & Hin & Hpos & Hl2 & Hn1 & Hn2). rewrite Z.sub_diag. rewrite app_nil_r, initialised_ok. cbn [bind wp fst snd].
    assert (take (Z.to_nat (zlen cells)) l = l) as Et by (apply take_ge; unfold zlen in *; lia). rewrite Et in *. split; [done|]. split; [done|]. split; [|done]. intros i t Ht. apply Hpos; [|done]. apply zlook_Some_lt in Ht. lia.
Qed.
