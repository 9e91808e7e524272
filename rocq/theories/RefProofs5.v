From Verif Require Import Base IndexSpec ArrLib IndexProofs3 IndexProofs4 FillLib RefModel RefSpec RefProofs RefProofs2 RefProofs3 RefProofs4.
From Coq Require Import ZifyBool ZifyNat.

Definition b2z (b : bool) : Z := if b then 1 else 0.
Lemma deleting_sum s : deleting s = zsum ((fun t => b2z (t_ret t)) <$> c_thr s).
Proof.
  unfold deleting. induction (c_thr s) as [|t l IH]; [done|]. rewrite filter_cons.
  change (zsum ((fun t => b2z (t_ret t)) <$> (t :: l))) with (b2z (t_ret t) + zsum ((fun t => b2z (t_ret t)) <$> l)). rewrite <- IH.
  case_decide as H; [rewrite H, zlen_cons; simpl; lia|]. destruct (t_ret t); [done|]. simpl. lia.
Qed.
Record cinv (s : cstate) : Prop := {
  ci_nn : forall t, t ∈ c_thr s -> 0 <= t_refs t;
  ci_cnt : c_cnt s = refs s;
  ci_del : c_dead s + deleting s = if c_cnt s =? 0 then 1 else 0;
  ci_dead : 0 <= c_dead s }.
Lemma refs_ge s t th : cinv s -> c_thr s @ t = Some th -> t_refs th <= refs s.
Proof.
  intros Hi Ht. unfold refs. apply zsum_ge.
  - intros v (x & -> & Hx)%elem_of_list_fmap. by apply (ci_nn s Hi).
  - apply elem_of_list_fmap. exists th. split; [done|]. by eapply zlook_elem.
Qed.
Lemma deleting_nonneg s : 0 <= deleting s.
Proof. apply zlen_nonneg. Qed.
Lemma deleting_ge s t th : c_thr s @ t = Some th -> t_ret th = true -> 1 <= deleting s.
Proof.
  intros Ht Hr. unfold deleting. assert (th ∈ filter (fun t => t_ret t = true) (c_thr s)) as H.
  { apply elem_of_list_filter. split; [done|]. by eapply zlook_elem. }
  destruct (filter _ _) as [|x k]; [by apply elem_of_nil in H|]. rewrite zlen_cons. pose proof (zlen_nonneg k). lia.
Qed.
Lemma set_thr c d l t th th' s : c_thr s = l -> l @ t = Some th ->
  refs (CSt c d (zset l t th')) = refs s + (t_refs th' - t_refs th) /\
  deleting (CSt c d (zset l t th')) = deleting s + (b2z (t_ret th') - b2z (t_ret th)).
Proof.
  intros <- Ht. rewrite !deleting_sum. unfold refs. simpl. rewrite !fmap_zset.
  rewrite (zsum_zset _ _ (t_refs th)) by (by rewrite zlook_fmap, Ht). rewrite (zsum_zset _ _ (b2z (t_ret th))) by (by rewrite zlook_fmap, Ht). done.
Qed.
Lemma set_nn l t th' : (forall x, x ∈ l -> 0 <= t_refs x) -> 0 <= t_refs th' -> forall x, x ∈ zset l t th' -> 0 <= t_refs x.
Proof. intros Hl H x Hx. apply elem_zset in Hx as [-> | Hx]; auto. Qed.

Lemma cstep_ok s ta : cinv s -> cact_ok s ta -> exists s', cstep s ta = Ok s' /\ cinv s'.
Proof.
  intros Hi (th & Ht & Hok). destruct ta as [t a]. simpl in Ht, Hok. cbn [cstep]. rewrite (rd_ok _ _ _ Ht). cbn [bind].
  pose proof (refs_ge _ _ _ Hi Ht) as Hge. pose proof (ci_cnt s Hi) as Hc. pose proof (ci_del s Hi) as Hd. pose proof (ci_dead s Hi) as Hdd.
  pose proof (deleting_nonneg s) as Hnn. pose proof (ci_nn s Hi) as Hr.
  assert (0 <= t_refs th) by (apply Hr; by eapply zlook_elem).
  assert (1 <= t_refs th -> c_dead s = 0 /\ deleting s = 0) as Hlive by (intros; destruct (c_cnt s =? 0) eqn:E; lia).
  destruct a as [| | | |u]; cbn [cact_ok] in Hok.
  - destruct Hok as [H1 H2]. destruct (Hlive H1) as [Hl Hdel]. rewrite Hl. change (negb (0 =? 0)) with false. cbn [ubif].
    eexists. split; [done|]. destruct (set_thr (c_cnt s + 1) 0 _ t th (Thr (t_refs th + 1) (t_ret th)) s eq_refl Ht) as [E1 E2]. simpl in E1, E2.
    split; [apply set_nn; [done|simpl; lia]|simpl; rewrite E1; lia|rewrite E2; simpl; destruct (c_cnt s + 1 =? 0) eqn:?; lia|simpl; lia].
  - destruct Hok as [H1 H2]. destruct (Hlive H1) as [Hl Hdel]. rewrite Hl. change (negb (0 =? 0)) with false. cbn [ubif].
    eexists. split; [done|]. destruct (set_thr (c_cnt s - 1) 0 _ t th (Thr (t_refs th - 1) (c_cnt s - 1 =? 0)) s eq_refl Ht) as [E1 E2]. simpl in E1, E2.
    split; [apply set_nn; [done|simpl; lia]|simpl; rewrite E1; lia| |simpl; lia].
    rewrite E2. simpl. rewrite H2, Hdel. unfold b2z. destruct (c_cnt s - 1 =? 0); lia.
  - destruct (t_ret th) eqn:Hret; [|exists s; done]. pose proof (deleting_ge _ _ _ Ht Hret) as Hdg.
    assert (c_dead s = 0) as Hl by (destruct (c_cnt s =? 0); lia). rewrite Hl. change (negb (0 =? 0)) with false. cbn [ubif].
    eexists. split; [done|]. destruct (set_thr (c_cnt s) (0 + 1) _ t th (Thr (t_refs th) false) s eq_refl Ht) as [E1 E2]. simpl in E1, E2.
    split; [apply set_nn; [done|simpl; lia]|simpl; rewrite E1; lia|rewrite E2, Hret; simpl; rewrite <- Hd; lia|simpl; lia].
  - destruct Hok as [H1 H2]. destruct (Hlive H1) as [Hl _]. rewrite Hl. change (negb (0 =? 0)) with false. cbn [ubif]. by exists s.
  - destruct Hok as (H1 & H2 & Hu).
    destruct (set_thr (c_cnt s) (c_dead s) _ t th (Thr (t_refs th - 1) (t_ret th)) s eq_refl Ht) as [E1 E2]. simpl in E1, E2.
    set (l := zset (c_thr s) t (Thr (t_refs th - 1) (t_ret th))) in *.
    assert (forall x, x ∈ l -> 0 <= t_refs x) as Hl by (apply set_nn; [done|simpl; lia]).
    destruct (zlook_lt l u) as [tu Htu]; [unfold l; by rewrite zlen_zset|]. rewrite (rd_ok _ _ _ Htu). cbn [bind]. eexists. split; [done|].
    destruct (set_thr (c_cnt s) (c_dead s) _ u tu (Thr (t_refs tu + 1) (t_ret tu)) (CSt (c_cnt s) (c_dead s) l) eq_refl Htu) as [E3 E4]. simpl in E3, E4.
    assert (0 <= t_refs tu) by (apply Hl; by eapply zlook_elem).
    split; [apply set_nn; [done|simpl; lia]|simpl; rewrite E3, E1; lia|rewrite E4, E2; simpl; rewrite <- Hd; lia|simpl; lia].
Qed.
Lemma cstart_inv n : cinv (cstart n).
Proof.
  assert (zsum (t_refs <$> replicate n (Thr 0 false)) = 0 /\ zlen (filter (fun t => t_ret t = true) (replicate n (Thr 0 false))) = 0) as [H1 H2].
  { induction n as [|n [IH1 IH2]]; [done|]. split; [simpl; change (0 + zsum (t_refs <$> replicate n (Thr 0 false)) = 0); lia|].
    simpl replicate. rewrite filter_cons. case_decide; [done|exact IH2]. }
  split.
  - intros t Ht. simpl in Ht. apply elem_of_cons in Ht as [-> | Ht]; [done|]. apply elem_of_replicate in Ht as [-> _]. done.
  - unfold refs. simpl c_thr. change (1 = 1 + zsum (t_refs <$> replicate n (Thr 0 false))). lia.
  - unfold deleting. simpl c_thr. rewrite filter_cons. case_decide; [done|]. rewrite H2. done.
  - done.
Qed.
Lemma crun_ok l s : cinv s -> schedule_ok s l -> exists s', foldM cstep l s = Ok s' /\ cinv s'.
Proof.
  revert s. induction l as [|ta l IH]; intros s Hi Hok; [exists s; done|]. destruct Hok as [Hc Hcs].
  destruct (cstep_ok s ta Hi Hc) as (s1 & Hs & Hi1). cbn [foldM]. rewrite Hs. cbn [bind]. apply IH; [done|]. by apply Hcs.
Qed.

(** * In the words of the properties. *)
Lemma ref_lifetime cs : program_ok rstart cs -> exists s, foldM rstep cs rstart = Ok s /\
  forall p ob, r_objs s @ p = Some ob ->
    (o_dead ob = 0 /\ 1 <= owners s p /\ o_cnt ob = owners s p) \/ (o_dead ob = 1 /\ owners s p = 0).
Proof.
  intros Hok. destruct (run_ok cs rstart start_inv Hok) as (s & Hs & Hi). exists s. split; [done|]. intros p ob Ho.
  specialize (Hi p). rewrite Ho in Hi. unfold good in Hi. rewrite tot_nil in Hi. exact Hi.
Qed.
Lemma ref_pointers cs c s : program_ok rstart (cs ++ [c]) -> foldM rstep cs rstart = Ok s -> exists s', rstep s c = Ok s' /\ pointers_after s c s' /\
  forall p, reachable s' p -> exists ob, r_objs s' @ p = Some ob /\ o_dead ob = 0.
Proof.
  assert (forall s0, inv s0 [] -> program_ok s0 (cs ++ [c]) -> foldM rstep cs s0 = Ok s -> inv s [] /\ rcmd_ok s c) as H.
  { induction cs as [|c0 cs IH]; intros s0 Hi Hok Hs.
    - cbn [foldM] in Hs. simplify_eq. simpl in Hok. tauto.
    - destruct Hok as [Hc Hcs]. destruct (rstep_ok s0 c0 Hi Hc) as (s1 & Hs1 & Hi1 & _). cbn [foldM] in Hs. rewrite Hs1 in Hs. cbn [bind] in Hs.
      apply (IH s1); [done| |done]. by apply Hcs. }
  intros Hok Hs. destruct (H _ start_inv Hok Hs) as [Hi Hc]. destruct (rstep_ok s c Hi Hc) as (s' & Hs' & Hi' & Hp).
  exists s'. split; [done|]. split; [done|]. intros p Hr. exact (reach_nil _ _ Hi' Hr).
Qed.
Lemma ref_threads n l : schedule_ok (cstart n) l -> exists s, foldM cstep l (cstart n) = Ok s /\
  c_cnt s = refs s /\ (1 <= refs s -> c_dead s = 0) /\ (refs s = 0 -> deleting s = 0 -> c_dead s = 1) /\ 0 <= c_dead s <= 1.
Proof.
  intros Hok. destruct (crun_ok l _ (cstart_inv n) Hok) as (s & Hs & Hi). exists s. split; [done|].
  pose proof (ci_cnt s Hi) as Hc. pose proof (ci_del s Hi) as Hd. pose proof (ci_dead s Hi) as Hdd. pose proof (deleting_nonneg s).
  repeat split; try lia; destruct (c_cnt s =? 0) eqn:E; lia.
Qed.
