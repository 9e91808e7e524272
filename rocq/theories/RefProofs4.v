From Verif Require Import Base IndexSpec ArrLib IndexProofs3 IndexProofs4 FillLib RefModel RefSpec RefProofs RefProofs2 RefProofs3.
From Coq Require Import ZifyBool ZifyNat.

Lemma shape_pointers s s' : same_shape s s' -> same_pointers s s'.
Proof. intros (? & Ht & ?). split; [done|]. rewrite Ht. done. Qed.
Lemma reach_nil s p : inv s [] -> reachable s p -> alive s p.
Proof. intros Hi Hr. by apply (reach_alive s []). Qed.
Lemma newVar_owners s q r : owners (newVar s q) r = owners s r + is r q.
Proof. rewrite !owners_def. simpl. rewrite holds_app, holds_cons, holds_nil. lia. Qed.
Lemma addTok_owners s p r : owners (addTok s p) r = owners s r + is r (Some p).
Proof. rewrite !owners_def. simpl r_toks. rewrite fmap_cons, holds_cons. simpl. lia. Qed.
Lemma tot_nil s r : tot s [] r = owners s r.
Proof. unfold tot. change (Some <$> []) with (@nil (option Z)). rewrite holds_nil. lia. Qed.
Lemma tot_one s p r : tot s [p] r = owners s r + is r (Some p).
Proof. rewrite tot_cons, tot_nil. lia. Qed.

(** The references in the hands of the program play no part. *)
Definition setToks (s : rstate) (t : list Z) : rstate := RSt (r_objs s) (r_vars s) t.
Lemma decrRefs_toks fuel s ps t s' : decrRefs fuel s ps = Ok s' -> decrRefs fuel (setToks s t) ps = Ok (setToks s' t).
Proof.
  revert s ps. induction fuel as [|fuel IH]; intros s [|p ps]; cbn [decrRefs]; try (intros ?; by simplify_eq).
  unfold deref. simpl r_objs. destruct (rd (r_objs s) p) as [ob| | |]; cbn [bind]; try done.
  destruct (negb (o_dead ob =? 0)); cbn [ubif bind]; [done|].
  destruct (o_cnt ob - 1 =? 0); intros H; by apply IH in H.
Qed.
Lemma destroyPtr_toks s x t s' p : content s x = Some p -> home s x -> destroyPtr s x = Ok s' -> destroyPtr (setToks s t) x = Ok (setToks s' t).
Proof.
  intros Hc Hh. unfold destroyPtr. rewrite (readLoc_ok _ _ _ Hc Hh).
  assert (content (setToks s t) x = Some p) as Hc' by (by destruct x).
  assert (home (setToks s t) x) as Hh' by (by destruct x). rewrite (readLoc_ok _ _ _ Hc' Hh'). cbn [bind].
  destruct p as [p|]; [|intros ?; by simplify_eq]. rewrite (writeLoc_ok _ _ _ None Hc Hh), (writeLoc_ok _ _ _ None Hc' Hh'). cbn [bind].
  unfold decrRef. replace (put (setToks s t) x None) with (setToks (put s x None) t); [apply decrRefs_toks|].
  destruct x as [v|o j]; simpl; [done|]. by destruct (r_objs s @ o).
Qed.

Lemma rstep_ok s c : inv s [] -> rcmd_ok s c -> exists s', rstep s c = Ok s' /\ inv s' [] /\ pointers_after s c s'.
Proof.
  intros Hi Hok. destruct c as [n|p|x|v|x|x y|x p|x p|x|p|p]; cbn [rcmd_ok] in Hok; cbn [rstep].
  - (* RNew *)
    eexists. split; [done|]. split; [|split; [done|split; [done|simpl; by rewrite !fmap_app]]].
    assert (forall r, tot (RSt (r_objs s ++ [Obj 1 0 (replicate (Z.to_nat n) None)]) (r_vars s) (zlen (r_objs s) :: r_toks s)) [] r
      = tot s [] r + is r (Some (zlen (r_objs s)))) as Ht.
    { intros r. rewrite !tot_nil, !owners_def. simpl r_objs. simpl r_vars. simpl r_toks. rewrite fmap_cons, holds_cons, fmap_app, zsum_app.
      change (zsum (share r <$> [Obj 1 0 (replicate (Z.to_nat n) None)])) with (holds r (replicate (Z.to_nat n) None) + 0).
      rewrite holds_replicate. lia. }
    intros q. unfold good. rewrite Ht. simpl. rewrite zlook_app. specialize (Hi q).
    destruct (q <? zlen (r_objs s)) eqn:E.
    + replace (is q (Some (zlen (r_objs s)))) with 0 by (unfold is; rewrite bool_decide_false; [done|intros ?; simplify_eq; lia]).
      rewrite Z.add_0_r. exact Hi.
    + rewrite zlook_ge in Hi by lia. rewrite zlook_cons. destruct (q - zlen (r_objs s) =? 0) eqn:E2.
      * assert (q = zlen (r_objs s)) as -> by lia. rewrite is_same. left. simpl. lia.
      * rewrite zlook_nil. replace (is q (Some (zlen (r_objs s)))) with 0 by (unfold is; rewrite bool_decide_false; [done|intros ?; simplify_eq; lia]). lia.
  - (* RCtor *)
    destruct p as [p|]; cbn [bind pointers_after withTok].
    + destruct (takeTok_ok s p (Hok _ eq_refl)) as (s1 & -> & Ho & Hv & Ht). cbn [bind]. eexists. split; [done|].
      pose proof (takeTok_inv _ _ _ Hi Ho Hv Ht) as Htot. split.
      * apply (ginv_same s _ (tot s [])); [|intros r; rewrite tot_nil, newVar_owners, <- Htot, tot_one; done|exact Hi].
        intros q. simpl. rewrite Ho. apply same_cnt_refl.
      * unfold same_pointers. simpl. rewrite Ho, Hv, Ht. done.
    + eexists. split; [done|]. split; [|by apply shape_pointers].
      apply (ginv_same s _ (tot s [])); [exact (same_cnt_refl s)|intros r; rewrite !tot_nil, newVar_owners, is_None; lia|exact Hi].
  - (* RCopy *)
    destruct (loc_in_home _ _ _ Hi Hok) as (Hh & p & Hc). rewrite (readLoc_ok _ _ _ Hc Hh). cbn [bind].
    destruct (referPtr_ok (newVar s None) (Var (zlen (r_vars s))) p) as (s' & Hs & Hi' & Hsh).
    + apply (ginv_same s _ (tot s [])); [exact (same_cnt_refl s)|intros r; rewrite !tot_nil, newVar_owners, is_None; lia|exact Hi].
    + done.
    + simpl. rewrite zlook_app_r by lia. by rewrite Z.sub_diag.
    + intros r ->. apply (loc_reach _ _ _ Hok) in Hc. by apply (reach_nil s).
    + exists s'. split; [done|]. split; [done|]. cbn [pointers_after]. intros p' Hp'. rewrite (readLoc_ok _ _ _ Hc Hh) in Hp'. simplify_eq.
      apply shape_pointers. replace (newVar s p') with (put (newVar s None) (Var (zlen (r_vars s))) p'); [done|]. simpl. unfold newVar. simpl. f_equal.
      apply zlook_ext. intros i. rewrite (zlook_zset (r_vars s ++ [None])) by (unfold zlen; rewrite app_length; simpl; lia).
      rewrite !zlook_app. destruct (i =? zlen (r_vars s)) eqn:E.
      * assert (i = zlen (r_vars s)) as -> by lia. rewrite Z.ltb_irrefl, Z.sub_diag. done.
      * destruct (i <? zlen (r_vars s)); [done|]. rewrite !zlook_cons. destruct (i - zlen (r_vars s) =? 0) eqn:E2; [lia|done].
  - (* RDestroy *)
    destruct (destroyPtr_ok s (Var v) Hi) as (s' & Hs & Hi' & Hsh); [simpl; by rewrite zlen_zset|].
    exists s'. split; [done|]. split; [done|]. by apply shape_pointers.
  - (* RNullify *)
    destruct (destroyPtr_ok s x Hi Hok) as (s1 & -> & Hi1 & Hsh1). cbn [bind].
    destruct (loc_in_home _ _ _ Hi1 (shape_loc_in _ _ _ Hsh1 Hok)) as (Hh & p & Hc).
    rewrite (writeLoc_ok _ _ _ None Hc Hh). eexists. split; [done|].
    assert (content s1 x = Some None) as Hn.
    { rewrite (shape_content _ _ _ Hsh1). apply put_content. destruct (loc_in_home _ _ _ Hi (loc_in_self _ _ Hok)) as (_ & ? & ->). done. }
    rewrite (put_id _ _ _ Hn). split; [done|]. by apply shape_pointers.
  - (* RAssign *)
    destruct Hok as [Hx Hy].
    destruct (loc_in_home _ _ _ Hi (loc_in_self _ _ Hx)) as (Hhx & p & Hcx). rewrite (readLoc_ok _ _ _ Hcx Hhx). cbn [bind].
    assert (loc_in s y) as Hly.
    { destruct y as [w|o j]; cbn [loc_in] in Hy |- *.
      - destruct x as [v|o j]; simpl in Hy; [by rewrite zlen_zset in Hy|by destruct (r_objs s @ o)].
      - destruct Hy as (Hr & ob & Ho & Hj). split; [by apply (without_reach s x)|]. destruct x as [v|o' j']; simpl in Ho; [eauto|].
        destruct (r_objs s @ o') as [ob'|] eqn:E; [|eauto]. simpl in Ho. rewrite zlook_zset in Ho by (by eapply zlook_Some_lt).
        destruct (o =? o') eqn:Eo; [|eauto]. assert (o = o') as -> by lia. simplify_eq. simpl in Hj. rewrite zlen_zset in Hj. eauto. }
    destruct (loc_in_home _ _ _ Hi Hly) as (Hhy & q & Hcy). rewrite (readLoc_ok _ _ _ Hcy Hhy). cbn [bind].
    case_bool_decide as Hpq.
    + exists s. split; [done|]. split; [done|]. cbn [pointers_after]. intros q' Hq'. rewrite (readLoc_ok _ _ _ Hcy Hhy) in Hq'. simplify_eq.
      rewrite (put_id _ _ _ Hcx). by apply shape_pointers.
    + assert (content (without s x) y = Some q) as Hcy'.
      { destruct x as [v|o j], y as [w|o' j']; simpl in Hcx, Hcy |- *.
        - rewrite zlook_zset by (by eapply zlook_Some_lt). destruct (w =? v) eqn:E; [|done]. assert (w = v) as -> by lia. congruence.
        - done.
        - by destruct (r_objs s @ o).
        - destruct (r_objs s @ o) as [ob|] eqn:Eo; [|done]. simpl. rewrite zlook_zset by (by eapply zlook_Some_lt).
          destruct (o' =? o) eqn:E; [|done]. assert (o' = o) as -> by lia. rewrite Eo in Hcy. simpl.
          rewrite zlook_zset by (by eapply zlook_Some_lt). destruct (j' =? j) eqn:E2; [|done]. assert (j' = j) as -> by lia. congruence. }
      destruct (destroyPtr_ok s x Hi Hx) as (s1 & -> & Hi1 & Hsh1). cbn [bind].
      pose proof (shape_loc_in _ _ _ Hsh1 Hx) as Hx1. pose proof (shape_loc_in _ _ _ Hsh1 Hy) as Hy1.
      destruct (loc_in_home _ _ _ Hi1 Hy1) as (Hhy1 & q1 & Hcy1).
      rewrite (readLoc_ok _ _ _ Hcy1 Hhy1). cbn [bind]. pose proof Hcy1 as Hq. rewrite (shape_content _ _ _ Hsh1), Hcy' in Hq. simplify_eq.
      destruct (loc_in_home _ _ _ Hi1 Hx1) as (Hhx1 & _).
      destruct (referPtr_ok s1 x q1 Hi1 Hhx1) as (s' & Hs & Hi' & Hsh').
      * rewrite (shape_content _ _ _ Hsh1). apply put_content. by rewrite Hcx.
      * intros r ->. apply (reach_nil s1); [done|]. by apply (loc_reach s1 y).
      * exists s'. split; [done|]. split; [done|]. cbn [pointers_after]. intros q' Hq'. rewrite (readLoc_ok _ _ _ Hcy Hhy) in Hq'. simplify_eq.
        apply shape_pointers. eapply same_shape_trans; [|exact Hsh']. rewrite <- (put_put s x None). by apply shape_put.
  - (* RAssignPtr *)
    destruct Hok as [Hx Hp].
    destruct (loc_in_home _ _ _ Hi (loc_in_self _ _ Hx)) as (Hhx & p0 & Hcx).
    destruct p as [p|]; cbn [bind pointers_after withTok].
    + destruct (Hp _ eq_refl) as [Htk Hne]. rewrite (readLoc_ok _ _ _ Hcx Hhx) in Hne.
      destruct (takeTok_ok s p Htk) as (s1 & -> & Ho & Hv & Ht). cbn [bind].
      pose proof (takeTok_inv _ _ _ Hi Ho Hv Ht) as Htot.
      assert (content s1 x = Some p0) as Hcx1 by (destruct x; simpl in *; by rewrite ?Ho, ?Hv).
      assert (home s1 x) as Hhx1 by (destruct x; simpl in *; unfold alive in *; by rewrite ?Ho).
      rewrite (readLoc_ok _ _ _ Hcx1 Hhx1). cbn [bind]. rewrite bool_decide_false by congruence.
      (* the reference taken is kept aside: seen as a variable *)
      assert (exists s2, destroyPtr s1 x = Ok s2 /\ inv s2 [p] /\ same_shape (without s1 x) s2 /\ home s2 x) as (s2 & -> & Hi2 & Hsh2 & Hh2).
      { destruct (destroyPtr_ok s x Hi Hx) as (s' & Hs & Hi' & Hsh). exists (setToks s' (r_toks s1)).
        replace s1 with (setToks s (r_toks s1)) at 1 by (destruct s1; unfold setToks; simpl in *; congruence).
        split; [exact (destroyPtr_toks _ _ _ _ _ Hcx Hhx Hs)|].
        assert (same_shape (without s1 x) (setToks s' (r_toks s1))) as Hsh1.
        { destruct Hsh as (H1 & _ & H3). unfold same_shape. simpl. rewrite H1, H3. unfold without. rewrite put_toks.
          destruct x as [v|o j]; simpl; rewrite ?Ho, ?Hv; [done|]. destruct (r_objs s @ o); simpl; rewrite ?Ho, ?Hv; done. }
        split; [|split; [done|]].
        - apply (ginv_same s' _ (tot s' [])); [exact (same_cnt_refl s')| |exact Hi'].
          intros r. rewrite tot_one, tot_nil, !owners_def. simpl. rewrite (proj1 (proj2 Hsh)). unfold without. rewrite put_toks.
          rewrite <- (holds_perm r (Some <$> (p :: r_toks s1)) (Some <$> r_toks s)) by (by rewrite Ht).
          rewrite fmap_cons, holds_cons. lia.
        - destruct (loc_in_home _ _ _ Hi' (shape_loc_in _ _ _ Hsh Hx)) as (Hh & _). by destruct x. }
      cbn [bind]. assert (content s2 x = Some None) as Hn.
      { rewrite (shape_content _ _ _ Hsh2). apply put_content. by rewrite Hcx1. }
      rewrite (writeLoc_ok _ _ _ (Some p) Hn Hh2). eexists. split; [done|]. split.
      * eapply ginv_same; [apply put_same_cnt| |exact Hi2]. intros r. rewrite tot_nil, tot_one, (put_owners _ _ _ _ _ Hn Hh2), is_None. lia.
      * assert (same_shape (put s1 x (Some p)) (put s2 x (Some p))) as Hsh.
        { rewrite <- (put_put s1 x None). by apply shape_put. }
        destruct Hsh as (H1 & H2 & H3). unfold same_pointers. simpl. rewrite H1, H2, H3. rewrite !put_toks, Ht.
        destruct x as [v|o j]; simpl; rewrite ?Ho, ?Hv; [done|]. destruct (r_objs s @ o); simpl; rewrite ?Ho, ?Hv; done.
    + rewrite (readLoc_ok _ _ _ Hcx Hhx). cbn [bind]. case_bool_decide as Hpq.
      * exists s. split; [done|]. split; [done|]. subst. rewrite (put_id _ _ _ Hcx). by apply shape_pointers.
      * destruct (destroyPtr_ok s x Hi Hx) as (s1 & -> & Hi1 & Hsh1). cbn [bind].
        destruct (loc_in_home _ _ _ Hi1 (shape_loc_in _ _ _ Hsh1 Hx)) as (Hh & p & Hc).
        rewrite (writeLoc_ok _ _ _ None Hc Hh). eexists. split; [done|].
        assert (content s1 x = Some None) as Hn.
        { rewrite (shape_content _ _ _ Hsh1). apply put_content. by rewrite Hcx. }
        rewrite (put_id _ _ _ Hn). split; [done|]. by apply shape_pointers.
  - (* RTakeRef *)
    destruct Hok as [Hx Hp].
    destruct (loc_in_home _ _ _ Hi (loc_in_self _ _ Hx)) as (Hhx & p0 & Hcx). rewrite (readLoc_ok _ _ _ Hcx Hhx) in *. cbn [bind].
    case_bool_decide as Hpq.
    + exists s. split; [done|]. split; [done|]. subst. cbn [pointers_after]. rewrite (put_id _ _ _ Hcx). by apply shape_pointers.
    + destruct (destroyPtr_ok s x Hi Hx) as (s1 & -> & Hi1 & Hsh1). cbn [bind].
      destruct (loc_in_home _ _ _ Hi1 (shape_loc_in _ _ _ Hsh1 Hx)) as (Hh & p1 & Hc).
      destruct (referPtr_ok s1 x p Hi1 Hh) as (s' & Hs & Hi' & Hsh').
      * rewrite (shape_content _ _ _ Hsh1). apply put_content. by rewrite Hcx.
      * intros r ->. destruct (Hp _ eq_refl) as [?|Hr]; [congruence|]. apply (reach_nil s1); [done|]. by eapply same_shape_reach.
      * exists s'. split; [done|]. split; [done|]. cbn [pointers_after].
        apply shape_pointers. eapply same_shape_trans; [|exact Hsh']. rewrite <- (put_put s x None). by apply shape_put.
  - (* RRetn *)
    destruct (loc_in_home _ _ _ Hi Hok) as (Hh & p & Hc). rewrite (readLoc_ok _ _ _ Hc Hh). cbn [bind pointers_after].
    destruct p as [p|].
    + destruct (incrRef_ok s (tot s []) p Hi) as (s' & -> & Hg & Hsh & Ho).
      { apply (reach_nil s); [done|]. by apply (loc_reach s x). }
      cbn [bind]. eexists. split; [done|]. split.
      * eapply ginv_same; [| |exact Hg]; [apply (same_cnt_refl s')|]. intros r. rewrite !tot_nil, addTok_owners, Ho. done.
      * intros p' Hp'. rewrite (readLoc_ok _ _ _ Hc Hh) in Hp'. simplify_eq. destruct Hsh as (H1 & H2 & H3). unfold same_pointers. simpl. by rewrite H1, H2, H3.
    + exists s. split; [done|]. split; [done|]. intros p' Hp'. rewrite (readLoc_ok _ _ _ Hc Hh) in Hp'. simplify_eq. by apply shape_pointers.
  - (* RIncr *)
    destruct (incrRef_ok s (tot s []) p Hi) as (s' & -> & Hg & Hsh & Ho); [by apply (reach_nil s)|].
    cbn [bind]. eexists. split; [done|]. split.
    + eapply ginv_same; [| |exact Hg]; [apply (same_cnt_refl s')|]. intros r. rewrite !tot_nil, addTok_owners, Ho. done.
    + destruct Hsh as (H1 & H2 & H3). unfold pointers_after, same_pointers. simpl. by rewrite H1, H2, H3.
  - (* RDecr *)
    destruct (takeTok_ok s p Hok) as (s1 & -> & Ho & Hv & Ht). cbn [bind].
    pose proof (takeTok_inv _ _ _ Hi Ho Hv Ht) as Htot.
    destruct (decrRef_ok s1 p) as (s' & Hs & Hi' & Hsh).
    { apply (ginv_same s _ (tot s [])); [|done|exact Hi]. intros q. rewrite Ho. apply same_cnt_refl. }
    exists s'. split; [done|]. split; [done|]. destruct Hsh as (H1 & H2 & H3). unfold pointers_after, same_pointers. simpl. by rewrite H1, H2, H3, Hv, Ho, Ht.
Qed.

Lemma run_ok cs s : inv s [] -> program_ok s cs -> exists s', foldM rstep cs s = Ok s' /\ inv s' [].
Proof.
  revert s. induction cs as [|c cs IH]; intros s Hi Hok; [exists s; done|]. destruct Hok as [Hc Hcs].
  destruct (rstep_ok s c Hi Hc) as (s1 & Hs & Hi1 & _). cbn [foldM]. rewrite Hs. cbn [bind]. apply IH; [done|]. by apply Hcs.
Qed.
Lemma start_inv : inv rstart [].
Proof. intros p. simpl. rewrite zlook_nil. rewrite tot_nil. done. Qed.

