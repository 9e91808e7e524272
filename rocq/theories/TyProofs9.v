(** A profile split type by type and put together again. *)
From Coq Require Import QArith ZifyBool ZifyNat.
From Verif Require Import Base DataArray ArrLib StdModel StdProofs FillLib RenumSpec RenumModel RenumProofs SearchSpec SearchModel SearchProofs SetsModel PermProofs SkyModel SkyProofs SkyProofs3 IndexSpec CellTable UmModel UmSpec UmProofs UmProofs2 UmProofs3 UmProofs8 UmProofs10 UcModel UcProofs3 DsProofs4 DsProofs5 TyModel TySpec TyProofs TyProofs2 TyProofs3 TyProofs4 TyProofs5 TyProofs6 TyProofs7 TyProofs8.
Local Open Scope Z_scope.

Lemma locals_range l pfl t v : v ∈ locals l pfl t -> 0 <= v < number l t.
Proof.
  intros Hv. unfold locals in Hv. apply elem_of_list_omap in Hv as (j & Hj & Ej). apply entries_elem in Hj as (w & Hw & Hlw). rewrite Hw in Ej. cbn in Ej. injection Ej as <-. pose proof (zlook_Some_lt _ _ _ Hlw). unfold rank_among. split; [apply number_nonneg|].
  assert (H' : number l t = number (take (Z.to_nat w) l) t + number (drop (Z.to_nat w) l) t) by (rewrite <- (take_drop (Z.to_nat w) l) at 1; unfold number; rewrite count_occ_app; lia). rewrite H'. assert (0 < number (drop (Z.to_nat w) l) t); [|lia]. unfold number. assert (In t (drop (Z.to_nat w) l)) as Hin. { apply elem_of_list_In, elem_of_zlook. exists 0. rewrite zlook_drop by lia. rewrite Z.add_0_r || idtac. rewrite <- Hlw. f_equal; lia. } apply (proj1 (count_occ_In Z.eq_dec _ _)) in Hin. lia.
Qed.
Lemma pieces_describe l pfl smart : forall ts k profs, 0 <= k -> (forall t, t ∈ ts -> t ∈ l) -> (forall i x, (pieces l pfl smart k ts).2 @ i = Some x -> profs @ (k + i) = Some (Some x)) ->
  describes l (pieces l pfl smart k ts).1 profs ((fun t => (t, locals l pfl t)) <$> ts).
Proof.
  induction ts as [|t ts IH]; intros k profs Hk Hin Hpr.
  - split; [done|]. intros i t ids H. rewrite fmap_nil, zlook_nil in H. done.
  - cbn [pieces] in *. set (b := smart && bool_decide (locals l pfl t = seqZ 0 (number l t))) in *.
    assert (Ht : t ∈ l) by (apply Hin, elem_of_cons; tauto). assert (Hin' : forall u, u ∈ ts -> u ∈ l) by (intros u Hu; apply Hin, elem_of_cons; tauto).
    assert (Hgo : forall id q, describes l q profs ((fun t => (t, locals l pfl t)) <$> ts) -> (id = -1 /\ locals l pfl t = seqZ 0 (number l t) \/ 0 <= id /\ profs @ id = Some (Some (locals l pfl t))) -> describes l (t :: zlen (entries l pfl t) :: id :: q) profs ((fun t => (t, locals l pfl t)) <$> (t :: ts))).
    { intros id q [D1 D2] Hor. split; [rewrite fmap_cons, !zlen_cons; lia|]. intros i u ids Hi. rewrite fmap_cons, zlook_cons in Hi. pose proof (zlook_Some_lt ((t, locals l pfl t) :: ((fun t => (t, locals l pfl t)) <$> ts)) i (u, ids)) as Hlt. rewrite zlook_cons in Hlt. specialize (Hlt Hi). destruct (Z.eqb_spec i 0) as [->|Hne].
      - injection Hi as <- <-. split; [done|]. split; [rewrite locals_len; done|]. split; [done|]. exists id. split; [done|]. destruct Hor as [Hor|[H1 H2]]; [tauto|]. right. split; [done|]. split; [done|]. apply locals_range.
      - destruct (D2 (i - 1) u ids Hi) as (K1 & K2 & K3 & id' & K4 & K5). assert (Hs3 : forall d, 0 <= d -> (t :: zlen (entries l pfl t) :: id :: q) @ (3 * i + d) = q @ (3 * (i - 1) + d)). { intros d Hd. rewrite !zlook_cons. destruct (Z.eqb_spec (3 * i + d) 0); [lia|]. destruct (Z.eqb_spec (3 * i + d - 1) 0); [lia|]. destruct (Z.eqb_spec (3 * i + d - 1 - 1) 0); [lia|]. f_equal. lia. }
        pose proof (Hs3 0 ltac:(lia)) as E0. rewrite !Z.add_0_r in E0. rewrite E0, !Hs3 by lia. split; [done|]. split; [done|]. split; [done|]. exists id'. done. }
    destruct b eqn:Eb; cbn [fst snd] in *.
    + apply Hgo; [apply IH; done|]. left. split; [done|]. unfold b in Eb. apply andb_true_iff in Eb as [_ Eb]. apply bool_decide_eq_true in Eb. done.
    + apply Hgo.
      * apply IH; [lia|done|]. intros i x Hi. pose proof (zlook_Some_lt _ _ _ Hi). replace (k + 1 + i) with (k + (i + 1)) by lia. apply Hpr. rewrite zlook_cons. destruct (Z.eqb_spec (i + 1) 0); [lia|]. replace (i + 1 - 1) with i by lia. done.
      * right. split; [done|]. rewrite <- (Z.add_0_r k). apply Hpr. done.
Qed.
Lemma nth_locals l pfl t : contiguous l -> t ∈ l -> nth_of_type l t (locals l pfl t) = omap (fun j => pfl @ j) (entries l pfl t).
Proof.
  intros Hc Ht. destruct (run_of l t Ht) as (pre & n & post & E). pose proof (number_run _ _ _ _ _ Hc E) as Hn. rewrite (run_nth _ _ _ _ _ _ Hc E) by (intros v Hv; rewrite <- Hn; eapply locals_range; exact Hv).
  apply zlook_ext. intros i. rewrite zlook_fmap, locals_look, omap_look by (intros j Hj; apply entries_elem in Hj as (v & -> & _); eexists; reflexivity). destruct (entries l pfl t @ i) as [j|] eqn:Ej; [|done]. cbn [mbind option_bind]. apply zlook_elem in Ej. apply entries_elem in Ej as (v & -> & Hlv). cbn [fmap option_fmap option_map]. rewrite (run_rank _ _ _ _ _ _ Hc E Hlv). f_equal. lia.
Qed.
Lemma present_in l pfl t : t ∈ present l pfl -> t ∈ l.
Proof. intros H. unfold present in H. apply elem_of_list_In, List.filter_In in H as [H _]. apply firsts_elem, elem_of_list_In. done. Qed.
Lemma filter_sublist {A} (p : A -> bool) l : List.filter p l `sublist_of` l.
Proof. induction l as [|x l IH]; [constructor|]. cbn [List.filter]. destruct (p x); constructor; done. Qed.
Lemma entries_perm l pfl : (forall v, v ∈ pfl -> 0 <= v < zlen l) -> concat (entries l pfl <$> present l pfl) ≡ₚ seqZ 0 (zlen pfl).
Proof.
  intros Hr. apply NoDup_Permutation; [|apply NoDup_seqZ|].
  - assert (H : forall ts, NoDup ts -> NoDup (concat (entries l pfl <$> ts))); [|apply H; unfold present; apply NoDup_ListNoDup, List.NoDup_filter, NoDup_ListNoDup, firsts_nodup].
    induction ts as [|t ts IH]; intros Hnd; [constructor|]. apply NoDup_cons in Hnd as [Hn Hnd]. rewrite fmap_cons. cbn [concat]. apply NoDup_app. split; [apply SS_NoDup, SS_seqZ_filter, zlen_nonneg|]. split; [|auto]. intros j Hj Hc. apply elem_concat' in Hc as (e & He & Hje). apply elem_of_list_fmap in He as (u & -> & Hu). apply entries_elem in Hj as (v & Hv & Hlv). apply entries_elem in Hje as (w & Hw & Hlw). apply Hn. assert (t = u) as -> by congruence. done.
  - intros j. rewrite elem_concat', elem_of_seqZ. split.
    + intros (e & He & Hje). apply elem_of_list_fmap in He as (u & -> & Hu). apply entries_elem in Hje as (v & Hv & _). apply zlook_Some_lt in Hv. lia.
    + intros Hj. destruct (zlook_lt pfl j) as [v Hv]; [lia|]. destruct (zlook_lt l v) as [t Ht]; [apply Hr; eapply zlook_elem; exact Hv|]. assert (Hje : j ∈ entries l pfl t) by (apply entries_elem; eauto). exists (entries l pfl t). split; [|done]. apply elem_of_list_fmap. exists t. split; [done|]. unfold present. apply elem_of_list_In, List.filter_In. split; [apply elem_of_list_In, firsts_elem; eapply zlook_elem; exact Ht|]. destruct (Z.eqb_spec (zlen (entries l pfl t)) 0) as [E|]; [|done]. apply SkyProofs3.zlen_0 in E. rewrite E in Hje. apply elem_of_nil in Hje. done.
Qed.
Lemma profile_back m cells pfl smart : stores m cells -> typed m cells -> is_Some (um_coords m) -> contiguous (kinds cells) -> pfl <> [] -> (forall v, v ∈ pfl -> 0 <= v < zlen cells) ->
  exists code ins ids r, splitProfilePerType m (vec pfl) smart = Ok (code, ins, ids) /\ checkTypeConsistencyAndContig m code (Some <$> ids) = Ok r /\ concat ins ≡ₚ seqZ 0 (zlen pfl) /\
    match r with None => omap (fun j => pfl @ j) (concat ins) = seqZ 0 (zlen cells) | Some x => x = Some <$> omap (fun j => pfl @ j) (concat ins) end.
Proof.
  intros Hs Ht Hco Hc Hne Hr. pose proof (profile_wp m cells pfl smart Hs) as W. assert (Hcn : cells <> []). { intros ->. destruct pfl as [|v p]; [done|]. specialize (Hr v ltac:(apply elem_of_cons; tauto)). change (zlen (@nil cell)) with 0 in Hr. lia. }
  destruct (splitProfilePerType m (vec pfl) smart) as [[[code ins] ids]| | |]; cbn [wp] in W; try done; [|exfalso; tauto]. destruct W as (_ & _ & _ & E). cbv zeta in E. injection E as -> -> ->. set (l := kinds cells) in *. assert (Hll : zlen l = zlen cells) by apply zlen_kinds. set (ts := present l pfl).
  pose proof (entries_perm l pfl ltac:(intros v Hv; rewrite Hll; auto)) as Hperm. fold ts in Hperm.
  assert (Hts : ts <> []). { intros E. rewrite E in Hperm. cbn in Hperm. apply Permutation_length in Hperm. rewrite seqZ_length in Hperm. cbn in Hperm. destruct pfl; [done|]. rewrite zlen_cons in Hperm. pose proof (zlen_nonneg pfl). lia. }
  assert (Htl : forall t, t ∈ ts -> t ∈ l) by (intros t; apply present_in).
  destruct (code_ok m cells (pieces l pfl smart 0 ts).1 (Some <$> (pieces l pfl smart 0 ts).2) ((fun t => (t, locals l pfl t)) <$> ts) Hs Ht Hco Hc) as (r & Er & Hres).
  - apply pieces_describe; [lia|done|]. intros i x Hi. rewrite zlook_fmap, Z.add_0_l, Hi. done.
  - rewrite <- list_fmap_compose. assert (Hid : (fst ∘ (fun t => (t, locals l pfl t))) <$> ts = ts) by (rewrite <- (list_fmap_id ts) at 2; apply list_fmap_ext; done). rewrite Hid. apply filter_sublist.
  - intros E. apply fmap_nil_inv in E. done.
  - exists (pieces l pfl smart 0 ts).1, (entries l pfl <$> ts), (pieces l pfl smart 0 ts).2, r. split; [done|]. split; [done|]. split; [done|]. fold l in Hres. assert (Hd : described l ((fun t => (t, locals l pfl t)) <$> ts) = omap (fun j => pfl @ j) (concat (entries l pfl <$> ts))).
    { unfold described. rewrite <- list_fmap_compose. clear - Hc Htl. induction ts as [|t ts IH]; [done|]. rewrite !fmap_cons. cbn [concat]. rewrite omap_app, <- IH by (intros u Hu; apply Htl, elem_of_cons; tauto). f_equal. cbn. apply nth_locals; [done|]. apply Htl, elem_of_cons. tauto. }
    rewrite Hd in Hres. done.
Qed.
