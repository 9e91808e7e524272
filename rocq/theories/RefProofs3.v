From Verif Require Import Base IndexSpec ArrLib IndexProofs3 IndexProofs4 FillLib RefModel RefSpec RefProofs RefProofs2.
From Coq Require Import ZifyBool ZifyNat.

(** * Counters and intended totals. *)
Definition ginv (s : rstate) (f : Z -> Z) : Prop :=
  forall p, match r_objs s @ p with
    | Some ob => (o_dead ob = 0 /\ 1 <= f p /\ o_cnt ob = f p) \/ (o_dead ob = 1 /\ f p = 0)
    | None => f p = 0 end.
Lemma inv_ginv s ps : inv s ps <-> ginv s (tot s ps).
Proof. done. Qed.
Definition same_cnt (s s' : rstate) : Prop :=
  forall p, match r_objs s @ p, r_objs s' @ p with
    | Some o, Some o' => o_cnt o' = o_cnt o /\ o_dead o' = o_dead o | None, None => True | _, _ => False end.
Lemma ginv_same s s' f g : same_cnt s s' -> (forall p, g p = f p) -> ginv s f -> ginv s' g.
Proof.
  intros Hs Hfg Hi p. specialize (Hs p). specialize (Hi p). rewrite Hfg.
  destruct (r_objs s @ p), (r_objs s' @ p); try done. destruct Hs as [-> ->]. done.
Qed.
Lemma same_cnt_alive s s' p : same_cnt s s' -> alive s p -> alive s' p.
Proof.
  intros Hs (ob & Ho & Hd). specialize (Hs p). rewrite Ho in Hs. destruct (r_objs s' @ p) as [ob'|] eqn:E; [|done].
  exists ob'. split; [done|]. lia.
Qed.
Lemma same_cnt_refl s : same_cnt s s.
Proof. intros p. by destruct (r_objs s @ p). Qed.

Definition content (s : rstate) (x : loc) : option (option Z) :=
  match x with Var v => r_vars s @ v | Slot o j => match r_objs s @ o with Some ob => o_slots ob @ j | None => None end end.
Definition home (s : rstate) (x : loc) : Prop := match x with Var _ => True | Slot o _ => alive s o end.
Lemma readLoc_ok s x p : content s x = Some p -> home s x -> readLoc s x = Ok p.
Proof.
  destruct x as [v|o j]; simpl; [intros H _; by apply rd_ok|]. intros Hc (ob & Ho & Hd). rewrite Ho in Hc.
  rewrite (deref_ok _ _ _ Ho Hd). cbn [bind]. by apply rd_ok.
Qed.
Lemma put_same_cnt s x p : same_cnt s (put s x p).
Proof.
  destruct x as [v|o j]; simpl; [exact (same_cnt_refl s)|]. destruct (r_objs s @ o) as [ob|] eqn:E; [|apply same_cnt_refl].
  intros q. simpl. rewrite zlook_zset by (by eapply zlook_Some_lt). destruct (q =? o) eqn:Eq; [|by destruct (r_objs s @ q)].
  assert (q = o) as -> by lia. by rewrite E.
Qed.
Lemma put_toks s x p : r_toks (put s x p) = r_toks s.
Proof. destruct x as [v|o j]; simpl; [done|]. by destruct (r_objs s @ o). Qed.
Lemma put_owners s x p q r : content s x = Some p -> home s x -> owners (put s x q) r = owners s r - is r p + is r q.
Proof.
  destruct x as [v|o j]; simpl.
  - intros Hc _. rewrite !owners_def. simpl. rewrite (holds_zset _ _ _ _ _ Hc). lia.
  - intros Hc (ob & Ho & Hd). rewrite Ho in *. rewrite (owners_setObj _ _ _ _ _ Ho). unfold share. simpl. rewrite Hd.
    change (0 =? 0) with true. cbv iota. rewrite (holds_zset _ _ _ _ _ Hc). lia.
Qed.
Lemma writeLoc_ok s x p q : content s x = Some p -> home s x -> writeLoc s x q = Ok (put s x q).
Proof.
  destruct x as [v|o j]; simpl.
  - intros Hc _. rewrite wr_ok by (by eapply zlook_Some_lt). done.
  - intros Hc (ob & Ho & Hd). rewrite Ho in *. rewrite (deref_ok _ _ _ Ho Hd). cbn [bind].
    rewrite wr_ok by (by eapply zlook_Some_lt). done.
Qed.
Lemma put_put s x p q : put (put s x p) x q = put s x q.
Proof.
  destruct x as [v|o j]; simpl.
  - unfold zset. by rewrite list_insert_insert.
  - destruct (r_objs s @ o) as [ob|] eqn:E; simpl; [|by rewrite E].
    rewrite zlook_zset by (by eapply zlook_Some_lt). rewrite Z.eqb_refl. unfold setObj. simpl.
    unfold zset. by rewrite !list_insert_insert.
Qed.
Lemma zset_id {A} (l : list A) i x : l @ i = Some x -> zset l i x = l.
Proof.
  intros Hi. apply zlook_ext. intros k. rewrite zlook_zset by (by eapply zlook_Some_lt). case_match; [|done]. assert (k = i) as -> by lia. done.
Qed.
Lemma put_id s x p : content s x = Some p -> put s x p = s.
Proof.
  destruct x as [v|o j]; simpl.
  - intros Hc. rewrite (zset_id _ _ _ Hc). by destruct s.
  - destruct (r_objs s @ o) as [ob|] eqn:E; [|done]. intros Hc. rewrite (zset_id _ _ _ Hc). destruct ob. unfold setObj. simpl.
    rewrite (zset_id _ _ _ E). by destruct s.
Qed.
Lemma put_content s x p : content s x <> None -> content (put s x p) x = Some p.
Proof.
  destruct x as [v|o j]; simpl.
  - destruct (r_vars s @ v) eqn:E; [|done]. intros _. rewrite zlook_zset by (by eapply zlook_Some_lt). by rewrite Z.eqb_refl.
  - destruct (r_objs s @ o) as [ob|] eqn:E; [|done]. simpl. intros H. rewrite zlook_zset by (by eapply zlook_Some_lt). rewrite Z.eqb_refl.
    simpl. destruct (o_slots ob @ j) eqn:E2; [|done]. rewrite zlook_zset by (by eapply zlook_Some_lt). by rewrite Z.eqb_refl.
Qed.
Lemma elem_zset {A} (l : list A) i x y : y ∈ zset l i x -> y = x \/ y ∈ l.
Proof.
  intros (k & Hk)%elem_of_list_lookup. unfold zset in Hk. apply list_lookup_insert_Some in Hk as [(_ & -> & _)|[_ Hk]]; [by left|right].
  by eapply elem_of_list_lookup_2.
Qed.
Lemma without_reach s x p : reachable (without s x) p -> reachable s p.
Proof.
  intros Hr. induction Hr as [p Hp|p Hp|o ob p Hr IH Ho Hp].
  - apply reach_tok. unfold without in Hp. by rewrite put_toks in Hp.
  - apply reach_var. destruct x as [v|o j]; simpl in Hp.
    + apply elem_zset in Hp as [?|?]; done.
    + by destruct (r_objs s @ o).
  - destruct x as [v|o' j]; simpl in Ho; [by eapply reach_slot|].
    destruct (r_objs s @ o') as [ob'|] eqn:E; [|by eapply reach_slot]. simpl in Ho.
    rewrite zlook_zset in Ho by (by eapply zlook_Some_lt). destruct (o =? o') eqn:Eo; [|by eapply reach_slot].
    simplify_eq. simpl in Hp. apply elem_zset in Hp as [?|?]; [done|]. assert (o = o') as -> by lia. by eapply reach_slot.
Qed.
Lemma loc_in_home s ps x : inv s ps -> loc_in s x -> home s x /\ exists p, content s x = Some p.
Proof.
  intros Hi. destruct x as [v|o j]; simpl.
  - intros Hv. split; [done|]. by apply zlook_lt.
  - intros (Hr & ob & Ho & Hj). split; [by apply (reach_alive s ps)|]. rewrite Ho. by apply zlook_lt.
Qed.
Lemma loc_reach s x p : loc_in s x -> content s x = Some (Some p) -> reachable s p.
Proof.
  destruct x as [v|o j]; simpl.
  - intros _ Hc. apply reach_var. by eapply zlook_elem.
  - intros (Hr & ob & Ho & Hj) Hc. rewrite Ho in Hc. eapply reach_slot; [done|done|]. by eapply zlook_elem.
Qed.
Lemma loc_in_self s x : loc_in (without s x) x -> loc_in s x.
Proof.
  destruct x as [v|o j]; simpl.
  - intros Hv. by rewrite zlen_zset in Hv.
  - intros (Hr & ob & Ho & Hj). split; [by apply (without_reach s (Slot o j))|]. destruct (r_objs s @ o) as [ob'|] eqn:E; [|congruence].
    simpl in Ho. rewrite zlook_zset in Ho by (by eapply zlook_Some_lt). rewrite Z.eqb_refl in Ho. simplify_eq. simpl in Hj. rewrite zlen_zset in Hj. eauto.
Qed.
Lemma shape_loc_in s s' x : same_shape s s' -> loc_in s x -> loc_in s' x.
Proof.
  intros Hs. destruct x as [v|o j]; simpl.
  - destruct Hs as (-> & _). done.
  - intros (Hr & ob & Ho & Hj). split; [by eapply same_shape_reach|]. destruct (same_shape_obj _ _ _ _ Hs Ho) as (ob' & Ho' & Hsl).
    exists ob'. by rewrite Hsl.
Qed.
Lemma same_shape_sym s s' : same_shape s s' -> same_shape s' s.
Proof. unfold same_shape. intuition congruence. Qed.
Lemma shape_content s s' x : same_shape s s' -> content s' x = content s x.
Proof.
  intros Hs. destruct x as [v|o j]; simpl.
  - by destruct Hs as (-> & _).
  - destruct (r_objs s @ o) as [ob|] eqn:E.
    + destruct (same_shape_obj _ _ _ _ Hs E) as (ob' & -> & Hsl). by rewrite Hsl.
    + destruct (r_objs s' @ o) as [ob|] eqn:E'; [|done].
      destruct (same_shape_obj _ _ _ _ (same_shape_sym _ _ Hs) E') as (ob' & ? & _). congruence.
Qed.
Lemma shape_put s s' x p : same_shape s s' -> same_shape (put s x p) (put s' x p).
Proof.
  intros Hs. pose proof Hs as (Hv & Ht & Ho). destruct x as [v|o j]; simpl.
  - unfold same_shape. simpl. rewrite Hv, Ht. done.
  - destruct (r_objs s @ o) as [ob|] eqn:E.
    + destruct (same_shape_obj _ _ _ _ Hs E) as (ob' & -> & Hsl). unfold same_shape. simpl. rewrite !fmap_zset, Ho. simpl. by rewrite Hsl.
    + destruct (r_objs s' @ o) as [ob|] eqn:E'; [|done].
      destruct (same_shape_obj _ _ _ _ (same_shape_sym _ _ Hs) E') as (ob' & ? & _). congruence.
Qed.

(** * The pieces. *)
Lemma destroyPtr_ok s x : inv s [] -> loc_in (without s x) x ->
  exists s', destroyPtr s x = Ok s' /\ inv s' [] /\ same_shape (without s x) s'.
Proof.
  intros Hi Hl. destruct (loc_in_home s [] x Hi (loc_in_self _ _ Hl)) as (Hh & p & Hc).
  unfold destroyPtr. rewrite (readLoc_ok _ _ _ Hc Hh). cbn [bind]. destruct p as [p|].
  - rewrite (writeLoc_ok _ _ _ None Hc Hh). cbn [bind]. apply decrRef_ok. eapply ginv_same; [apply put_same_cnt| |exact Hi].
    intros q. unfold tot, without. rewrite (put_owners _ _ _ _ _ Hc Hh), is_None. change (Some <$> [p]) with [Some p]. change (Some <$> []) with (@nil (option Z)).
    rewrite holds_cons, holds_nil. lia.
  - exists s. split; [done|]. split; [done|]. unfold without. rewrite (put_id _ _ _ Hc). apply same_shape_refl.
Qed.
Lemma incrRef_ok s f p : ginv s f -> alive s p -> exists s', incrRef s p = Ok s' /\ ginv s' (fun r => f r + is r (Some p)) /\ same_shape s s' /\
  (forall r, owners s' r = owners s r).
Proof.
  intros Hi (ob & Ho & Hd). unfold incrRef. rewrite (deref_ok _ _ _ Ho Hd). cbn [bind]. eexists. split; [done|]. split; [|split].
  - intros q. simpl. rewrite zlook_zset by (by eapply zlook_Some_lt). destruct (q =? p) eqn:E.
    + assert (q = p) as -> by lia. specialize (Hi p). rewrite Ho in Hi. rewrite is_same. simpl. lia.
    + specialize (Hi q). replace (is q (Some p)) with 0; [rewrite Z.add_0_r; exact Hi|].
      unfold is. rewrite bool_decide_false; [done|]. intros ?; simplify_eq. lia.
  - by apply same_shape_setObj.
  - intros r. rewrite (owners_setObj _ _ _ _ _ Ho). unfold share. simpl. lia.
Qed.
(** Setting the null pointer [x] to [q]. *)
Lemma referPtr_ok s x q : inv s [] -> home s x -> content s x = Some None -> (forall r, q = Some r -> alive s r) ->
  exists s', referPtr s x q = Ok s' /\ inv s' [] /\ same_shape (put s x q) s'.
Proof.
  intros Hi Hh Hc Hq. unfold referPtr. rewrite (writeLoc_ok _ _ _ q Hc Hh). cbn [bind]. destruct q as [q|].
  - assert (ginv (put s x (Some q)) (tot s [])) as Hg by (eapply ginv_same; [apply put_same_cnt|done|exact Hi]).
    destruct (incrRef_ok _ _ q Hg) as (s' & Hs & Hg' & Hsh & Ho).
    { eapply same_cnt_alive; [apply put_same_cnt|]. by apply Hq. }
    exists s'. split; [done|]. split; [|done]. eapply ginv_same; [apply same_cnt_refl| |exact Hg'].
    intros r. unfold tot. rewrite Ho, (put_owners _ _ _ _ _ Hc Hh), is_None. lia.
  - exists (put s x None). split; [done|]. rewrite (put_id _ _ _ Hc). split; [done|apply same_shape_refl].
Qed.
Lemma takeTok_ok s p : p ∈ r_toks s -> exists s', takeTok s p = Ok s' /\ r_objs s' = r_objs s /\ r_vars s' = r_vars s /\ p :: r_toks s' ≡ₚ r_toks s.
Proof.
  intros Hp. unfold takeTok. destruct (list_find_elem_of (eq p) (r_toks s) p Hp eq_refl) as ([n y] & Hn). rewrite Hn.
  apply list_find_Some in Hn as (Hn & <- & _). eexists. split; [done|]. split; [done|]. split; [done|]. simpl.
  symmetry. by apply delete_Permutation.
Qed.
Lemma holds_perm p l k : l ≡ₚ k -> holds p l = holds p k.
Proof. intros H. unfold holds, zlen. by rewrite H. Qed.
Lemma takeTok_inv s s' p : inv s [] -> r_objs s' = r_objs s -> r_vars s' = r_vars s -> p :: r_toks s' ≡ₚ r_toks s ->
  (forall r, tot s' [p] r = tot s [] r).
Proof.
  intros Hi Ho Hv Ht r. unfold tot. rewrite !owners_def, Ho, Hv.
  rewrite <- (holds_perm r (Some <$> (p :: r_toks s')) (Some <$> r_toks s)) by (by rewrite Ht).
  rewrite !fmap_cons, !holds_cons. change (Some <$> []) with (@nil (option Z)). rewrite holds_nil. lia.
Qed.
