(** Proofs for the buffer of an array: one call, and sessions. *)
From Verif Require Import Base DataArray ArrLib BufModel BufSpec BufProofs BufProofs2.
From Coq Require Import ZifyBool ZifyNat.

Section Proofs.
  Context {A : Type}.
  Implicit Types (s : st A) (c : cmd A).

  Definition inv s : Prop := good (s_heap s) (s_mem s) /\ 0 <= s_nc s /\ (exists nt, 0 <= nt /\ m_nb (s_mem s) = nt * s_nc s) /\
    (m_ext (s_mem s) <> None -> 1 <= s_nc s).
  (** calls that write into the current values *)
  Definition writes c : Prop := match c with Push _ | Insert _ | Write _ _ _ | Fill _ | DeepCopy _ _ => True | _ => False end.

  Lemma view_vw s : view s = (s_nc s, vw (s_heap s) (s_mem s)). Proof. done. Qed.
  Lemma inv_nt s : inv s -> nbTuples s = (if s_nc s =? 0 then 0 else Z.quot (zlen (content (view s))) (s_nc s)).
  Proof.
    intros (Hg & _). unfold nbTuples, content. destruct (s_nc s =? 0); [done|]. f_equal. rewrite view_vw. simpl.
    destruct (vw _ _) as [l|] eqn:E; simpl; [symmetry; by apply (good_len (s_heap s))|].
    destruct (good_none _ _ Hg E) as (_ & -> & _). done.
  Qed.
  Lemma allocNeeded_eq s nt nc' : inv s ->
    allocNeeded s nt nc' = negb (bool_decide (is_Some (view s).2)) || negb (nt =? nbTuples s) || negb (nc' =? s_nc s).
  Proof. intros Hi. unfold allocNeeded. rewrite (isAllocated_vw (s_heap s)) by apply Hi. done. Qed.

  (** the outcome of one call on a good state *)
  Definition step_post s c (s' : st A) (v : option (option A)) : Prop :=
    inv s' /\ same (s_heap s) (s_heap s') (m_int (s_mem s)) /\
    match c with
    | UseExternal b _ n c' | UseRW b n c' =>
        v = None /\ exists blk, s_heap s @ b = Some blk /\ view s' = (c', Some (take (Z.to_nat (n * c')) (b_cells blk)))
    | _ => aop (view s) c = Ok (view s', v)
    end /\
    match c with
    | UseExternal _ _ _ _ => m_int (s_mem s') = None
    | UseRW b _ _ => m_int (s_mem s') = Some b /\ m_ext (s_mem s') = None
    | Pack | Pop | AllocIfNecessary _ _ | ReAlloc _ | Reserve _ | NewClient _ _ => m_ext (s_mem s) = None -> m_ext (s_mem s') = None
    | _ => m_ext (s_mem s') = None
    end.

  Lemma lift_wp nc r (Q : st A * option (option A) -> Prop) T :
    wp r (fun '(h, m) => Q (St h m nc, None)) T -> wp (lift nc r) Q T.
  Proof. intros H. unfold lift. apply wp_bind. eapply wp_mono; [exact H| |done]. intros [h m] Hq. exact Hq. Qed.

  Lemma default_len s : inv s -> zlen (default [] (vw (s_heap s) (s_mem s))) = m_nb (s_mem s).
  Proof.
    intros (Hg & _). destruct (vw _ _) as [l|] eqn:E; simpl; [by apply (good_len (s_heap s))|].
    destruct (good_none _ _ Hg E) as (_ & -> & _). done.
  Qed.

  Ltac pack_same := apply same_weak; done.
  Lemma step_wp s c : inv s -> cmd_ok s c ->
    wp (step s c) (fun '(s', v) => step_post s c s' v)
       ((match c with UseExternal _ _ _ _ | UseRW _ _ _ => False | _ => aop (view s) c = Throw end) \/ (read_only s /\ writes c)).
  Proof.
    intros Hi Hok. pose proof Hi as (Hg & Hnc & (nt0 & Hnt0 & Hnb) & Hro).
    assert (Hmem : Mem 0 0 false None None None = m0) by done.
    destruct c as [nt nc'|nt nc'|n|nt| |x| |k|id x k|x|nc' l| |k cells|k cells nt nc'|b k nt nc'|b nt nc']; simpl in Hok; unfold step.
    - (* Alloc *) destruct Hok as [H1 H2]. apply lift_wp. eapply (wp_mono _ _ _ False); [apply (malloc_wp _ _ (nc' * nt) Hg); nia| |done].
      intros [h' m'] (G1 & G2 & G3 & G4 & G5 & _). unfold step_post. rewrite !view_vw. cbn. rewrite G2. split; [|split; [by apply same_weak|done]].
      split; [done|]. split; [done|]. split; [|done]. exists nt. simpl. lia.
    - (* AllocIfNecessary *) destruct Hok as [H1 H2]. pose proof (allocNeeded_eq s nt nc' Hi) as Ha. destruct (allocNeeded s nt nc') eqn:E.
      + apply lift_wp. eapply (wp_mono _ _ _ False); [apply (malloc_wp _ _ (nc' * nt) Hg); nia| |done].
        intros [h' m'] (G1 & G2 & G3 & G4 & G5 & _). unfold step_post. rewrite (inv_nt s Hi) in Ha. rewrite !view_vw in *.
        unfold aop. cbn [s_heap s_mem s_nc snd] in *. rewrite <- Ha. rewrite G2. split; [|split; [by apply same_weak|done]].
        split; [done|]. split; [done|]. split; [|done]. exists nt. simpl. lia.
      + simpl. unfold step_post. rewrite (inv_nt s Hi) in Ha. rewrite !view_vw in *. unfold aop. cbn [s_heap s_mem s_nc snd] in *. rewrite <- Ha.
        split; [done|]. split; [apply same_refl|done].
    - (* Reserve *) unfold oneComp. apply wp_ifthrow.
      + intros Hc. left. rewrite view_vw. unfold aop. replace ((s_nc s =? 0) || (s_nc s =? 1)) with false by lia. done.
      + intros Hc. apply lift_wp. eapply (wp_mono _ _ _ False); [apply (reserve_wp _ _ n Hg Hok)| |done].
        intros [h' m'] (G1 & G2 & G3 & G4 & G5 & G6). unfold step_post. rewrite !view_vw. unfold aop. cbn [s_heap s_mem s_nc snd].
        replace ((s_nc s =? 0) || (s_nc s =? 1)) with true by lia. unfold content. cbn [snd]. rewrite G4.
        split; [|split; [by apply same_weak|split; [done|]]].
        * split; [done|]. split; [simpl; lia|]. split; [exists (m_nb m'); simpl; destruct G1; lia|]. simpl. lia.
        * destruct (m_nalloc (s_mem s) =? n); [destruct G5 as [-> _]; done|destruct G5; done].
    - (* ReAlloc *) apply wp_ifthrow.
      + intros Hc. left. rewrite view_vw. rewrite (isAllocated_vw (s_heap s)) in Hc by done. simpl.
        destruct (vw _ _); [rewrite bool_decide_true in Hc by done; done|done].
      + intros Hc. rewrite (isAllocated_vw (s_heap s)) in Hc by done. destruct (vw (s_heap s) (s_mem s)) as [l|] eqn:Ev.
        2:{ rewrite bool_decide_false in Hc; [done|]. intros [? ?]; done. }
        apply lift_wp. eapply (wp_mono _ _ _ False); [apply (reAlloc_wp _ _ (s_nc s * nt) l Hg Ev); nia| |done].
        intros [h' m'] (G1 & G2 & G3 & G4 & G5). unfold step_post. rewrite !view_vw. unfold aop. cbn [s_heap s_mem s_nc snd]. rewrite Ev, G3.
        split; [|split; [by apply same_weak|split; [done|]]].
        * split; [done|]. split; [done|]. split; [exists nt; simpl; lia|]. simpl. intros He. apply Hro. destruct (m_nb (s_mem s) =? _); [destruct G4 as [-> _]; done|destruct G4; done].
        * destruct (m_nb (s_mem s) =? _); [destruct G4 as [-> _]; done|destruct G4; done].
    - (* Pack *) apply lift_wp. eapply (wp_mono _ _ _ False); [apply (reserve_wp _ _ (m_nb (s_mem s)) Hg); destruct Hg; lia| |done].
      intros [h' m'] (G1 & G2 & G3 & G4 & G5 & G6). unfold step_post. rewrite !view_vw. unfold aop. cbn [s_heap s_mem s_nc snd].
      assert (Hv : vw h' m' = vw (s_heap s) (s_mem s)).
      { rewrite G4. destruct (vw (s_heap s) (s_mem s)) as [l|] eqn:Ev.
        - rewrite (bool_decide_true (is_Some (Some l))) by done. rewrite andb_false_r. simpl. rewrite take_ge; [done|].
          pose proof (good_len _ _ _ Hg Ev). unfold zlen in *. lia.
        - destruct (good_none _ _ Hg Ev) as (_ & -> & _). rewrite bool_decide_false by (intros [? ?]; done). done. }
      rewrite Hv. split; [|split; [by apply same_weak|split; [done|]]].
      + split; [done|]. split; [done|]. split; [exists nt0; simpl; lia|]. simpl. intros He. apply Hro. destruct (m_nalloc (s_mem s) =? _); [destruct G5 as [-> _]; done|destruct G5; done].
      + destruct (m_nalloc (s_mem s) =? _); [destruct G5 as [-> _]; done|destruct G5; done].
    - (* Push *) unfold oneComp. apply wp_ifthrow.
      + intros Hc. left. rewrite view_vw. unfold aop. replace ((s_nc s =? 0) || (s_nc s =? 1)) with false by lia. done.
      + intros Hc. apply lift_wp. eapply wp_mono; [apply (pushBack_wp _ _ x Hg)| |].
        * intros [h' m'] (G1 & G2 & G3 & G4 & G5). unfold step_post. rewrite !view_vw. unfold aop. cbn [s_heap s_mem s_nc snd].
          replace ((s_nc s =? 0) || (s_nc s =? 1)) with true by lia. unfold content. cbn [snd]. rewrite G2.
          split; [|done]. split; [done|]. split; [simpl; lia|]. split; [exists (m_nb m'); simpl; destruct G1; lia|]. simpl. lia.
        * intros He. right. done.
    - (* Pop *) apply wp_ifthrow.
      + intros Hc. left. rewrite view_vw. unfold aop. replace (s_nc s =? 1) with false by lia. done.
      + intros Hc. eapply wp_bind'; [eapply wp_mono; [apply (popBack_wp _ _ Hg)|intros ? H; exact H|]|].
        * intros H0. left. rewrite view_vw. unfold aop, content. cbn [snd]. rewrite H0. rewrite andb_false_r. done.
        * intros [m' x] (l & Ev & Hl & Hx & G1 & G2 & G3 & G4 & G5). unfold wp. unfold step_post. rewrite !view_vw. unfold aop, content. cbn [s_heap s_mem s_nc snd].
          rewrite Ev. simpl default. replace ((s_nc s =? 1) && (0 <? zlen l)) with true by lia. rewrite G2, Hx.
          split; [|split; [apply same_refl|split; [done|intros; simpl; congruence]]]. split; [done|]. split; [done|].
          split; [exists (m_nb m'); simpl; destruct G1; lia|]. simpl. rewrite G4. done.
    - (* Insert *) unfold oneComp. apply wp_ifthrow.
      + intros Hc. left. rewrite view_vw. unfold aop. replace ((s_nc s =? 0) || (s_nc s =? 1)) with false by lia. done.
      + intros Hc. apply lift_wp. eapply wp_mono; [apply (insert_wp _ _ k Hg)| |].
        * intros [h' m'] (G1 & G2 & G3 & G4 & G5). unfold step_post. rewrite !view_vw. unfold aop. cbn [s_heap s_mem s_nc snd].
          replace ((s_nc s =? 0) || (s_nc s =? 1)) with true by lia. unfold content. cbn [snd]. rewrite G2.
          split; [|done]. split; [done|]. split; [simpl; lia|]. split; [exists (m_nb m'); simpl; destruct G1; lia|]. simpl. lia.
        * intros He. right. done.
    - (* Write *) destruct Hok as [H1 H2]. apply lift_wp. eapply wp_mono; [apply (write_wp _ _ id x k Hg H2)| |].
      + intros [h' m'] (G1 & G2 & G3 & G4 & G5). unfold step_post. rewrite !view_vw. unfold aop, content. cbn [s_heap s_mem s_nc snd].
        rewrite G2. split; [|split; [done|split; [|done]]].
        * split; [done|]. split; [done|]. split; [exists (m_nb m'); simpl; rewrite H1; destruct G1; lia|]. simpl. lia.
        * unfold over. replace (id + zlen (x :: k)) with (id + 1 + zlen k) by (unfold zlen; simpl; lia). done.
      + intros He. right. done.
    - (* Fill *) apply wp_ifthrow.
      + intros Hc. left. rewrite view_vw. rewrite (isAllocated_vw (s_heap s)) in Hc by done. simpl.
        destruct (vw _ _); [rewrite bool_decide_true in Hc by done; done|done].
      + intros Hc. rewrite (isAllocated_vw (s_heap s)) in Hc by done. destruct (vw (s_heap s) (s_mem s)) as [l|] eqn:Ev.
        2:{ rewrite bool_decide_false in Hc; [done|]. intros [? ?]; done. }
        eapply wp_bind'; [eapply wp_mono; [apply (fill_wp _ _ x l Hg Ev)|intros ? H; exact H|]|].
        * intros He. right. done.
        * intros h' (G1 & G2 & G3 & G4). unfold wp. unfold step_post. rewrite !view_vw. unfold aop. cbn [s_heap s_mem s_nc snd]. rewrite Ev, G2.
          split; [|done]. split; [done|]. split; [done|]. split; [exists nt0; done|done].
    - (* DeepCopy *) destruct Hok as (H1 & n & H2 & H3).
      assert (Hnt : nc' * (if nc' =? 0 then 0 else Z.quot (zlen l) nc') = zlen l /\ 0 <= (if nc' =? 0 then 0 else Z.quot (zlen l) nc')).
      { destruct (Z.eqb_spec nc' 0) as [E|E]; [subst; lia|]. rewrite H3, Z.quot_mul by done. lia. }
      set (nt := if nc' =? 0 then 0 else Z.quot (zlen l) nc') in *. destruct Hnt as [Hnt Hnt'].
      eapply (wp_bind' _ _ (fun '(h1, m1) => good h1 m1 /\ is_Some (vw h1 m1) /\ m_nb m1 = zlen l /\ same (s_heap s) h1 None /\
        (m_ext m1 = None /\ same (s_heap s) h1 None /\ (forall h2, same h1 h2 (m_int m1) -> same (s_heap s) h2 (m_int (s_mem s)))
          \/ (h1, m1) = (s_heap s, s_mem s)))).
      { pose proof (allocNeeded_eq s nt nc' Hi) as Ha. destruct (allocNeeded s nt nc').
        - unfold doAlloc. rewrite Hnt. eapply (wp_mono _ _ _ False); [apply (malloc_wp _ _ (zlen l) Hg), zlen_nonneg| |done].
          intros [h1 m1] (G1 & G2 & G3 & G4 & G5 & G6). rewrite G2. split; [done|]. split; [done|]. split; [done|]. split; [done|]. left. split; [done|]. split; [done|].
          intros h2 Hs. apply same_weak. eapply same_trans; [exact G5|]. eapply own_same; done.
        - simpl. symmetry in Ha. rewrite view_vw in Ha. simpl in Ha.
          assert (Hb : bool_decide (is_Some (vw (s_heap s) (s_mem s))) = true /\ nt = nbTuples s /\ nc' = s_nc s) by (clear - Ha; lia).
          destruct Hb as (Hb & Hn & Hc). apply bool_decide_eq_true in Hb. split; [done|]. split; [done|]. split; [|split; [apply same_refl|by right]].
          rewrite <- Hnt, Hn, Hc. unfold nbTuples. destruct (Z.eqb_spec (s_nc s) 0) as [E|E]; [rewrite Hnb, E; lia|].
          rewrite Hnb, Z.quot_mul by done. lia. }
      intros [h1 m1] (G1 & [l1 G2] & G3 & G4 & G5).
      eapply wp_bind'; [eapply wp_mono; [apply (getPointer_wp _ _ _ G1 G2)|intros ? H; exact H|]|].
      { intros He. right. split; [|done]. unfold read_only. destruct G5 as [[? _]|[=-> ->]]; [done|done]. }
      intros p (-> & Hpp & He). destruct (good_some _ _ _ G1 G2) as (b & blk & Hp & Hb & Hf & Hl & El). rewrite Hpp, Hp.
      replace (nt * nc') with (zlen l) by lia. rewrite (write_loop h1 b blk l); [|done|done|destruct G1; lia|].
      2:{ intros i x h' Hx. unfold rd. rewrite Hx. done. }
      unfold wp, bind. unfold step_post. rewrite !view_vw. cbn [s_heap s_mem s_nc aop].
      destruct (setcells h1 m1 b blk (over (b_cells blk) 0 l) (m_nb m1) G1 Hp Hb) as (F1 & F2 & F3).
      { apply zlen_over; destruct G1; lia. }
      { destruct G1; lia. }
      replace (Mem (m_nb m1) _ _ _ _ _) with m1 in * by (destruct m1; done).
      split; [|split; [|split; [|done]]].
      + split; [done|]. split; [done|]. split; [exists nt; simpl; lia|]. done.
      + destruct G5 as [(_ & _ & G5)|[=-> ->]]; [|by apply F3]. apply G5, F3. done.
      + unfold put. cbn [s_heap s_mem]. rewrite F2, G3, over_all by (destruct G1; lia). done.
    - (* Desallocate *) apply lift_wp. eapply (wp_mono _ _ _ False); [apply (destroy_wp _ _ Hg)| |done].
      intros [h' m'] (-> & G1 & G2 & G3). unfold step_post. rewrite !view_vw. cbn. split; [|split; [by apply same_weak|done]].
      split; [by apply good_m0|]. split; [done|]. split; [exists 0; simpl; lia|]. simpl. done.
    - (* NewClient *) simpl. unfold step_post. rewrite !view_vw. cbn [s_heap s_mem s_nc aop].
      destruct (client_good _ _ k cells Hg) as [G1 G2]. rewrite G2. split; [|split; [apply same_snoc|done]].
      split; [done|]. split; [done|]. split; [|done]. exists nt0; done.
    - (* UseOwned *) destruct Hok as (H1 & H2 & H3). apply lift_wp. eapply (wp_mono _ _ _ False); [apply (useOwned_wp _ _ k cells (nt * nc') Hg); nia| |done].
      intros [h' m'] (G1 & G2 & G3 & G4 & G5). unfold step_post. rewrite !view_vw. cbn. rewrite G2. split; [|split; [by apply same_weak|done]].
      split; [done|]. split; [done|]. split; [|done]. exists nt. simpl. lia.
    - (* UseExternal *) destruct Hok as (H1 & H2 & blk & Hb & Ha & H3). apply lift_wp.
      eapply (wp_mono _ _ _ False); [apply (register_wp _ _ b blk k (nt * nc') true Hg Hb Ha); nia| |done].
      intros [h' m'] (G1 & G2 & G3 & G4 & G5). unfold step_post. rewrite !view_vw. cbn. rewrite G2. split; [|split; [by apply same_weak|]].
      + split; [done|]. split; [simpl; lia|]. split; [|done]. exists nt. simpl. lia.
      + split; [|done]. split; [done|]. exists blk. done.
    - (* UseRW *) destruct Hok as (H1 & H2 & blk & Hb & Ha & H3). apply lift_wp.
      eapply (wp_mono _ _ _ False); [apply (register_wp _ _ b blk CPP (nt * nc') false Hg Hb Ha); nia| |done].
      intros [h' m'] (G1 & G2 & G3 & [G4 G4'] & G5). unfold step_post. rewrite !view_vw. cbn. rewrite G2. split; [|split; [by apply same_weak|]].
      + split; [done|]. split; [simpl; lia|]. split; [|done]. exists nt. simpl. lia.
      + split; [|done]. split; [done|]. exists blk. done.
  Qed.

  (** ** sessions *)
  Lemma session_inv cs : forall s, inv s -> session_ok s cs -> exists s' os, session step s cs = Ok (s', os) /\ inv s'.
  Proof.
    induction cs as [|c cs IH]; intros s Hi Hok; [exists s, []; done|]. destruct Hok as [Hc Hok]. simpl.
    pose proof (step_wp s c Hi Hc) as Hw. destruct (step s c) as [[s1 v]| | |]; simpl in Hw; try done.
    - destruct Hw as (Hi1 & _). destruct (IH s1 Hi1 Hok) as (s' & os & -> & Hi'). simpl. eauto.
    - destruct (IH s Hi Hok) as (s' & os & -> & Hi'). simpl. eauto.
  Qed.
  Lemma session_abs cs : forall s, inv s -> m_ext (s_mem s) = None -> Forall no_external cs -> session_ok s cs ->
    exists s' os, session step s cs = Ok (s', os) /\ session aop (view s) cs = Ok (view s', os).
  Proof.
    induction cs as [|c cs IH]; intros s Hi He Hne Hok; [exists s, []; done|]. destruct Hok as [Hc Hok].
    apply Forall_cons in Hne as [Hn Hne]. cbn [session].
    pose proof (step_wp s c Hi Hc) as Hw. destruct (step s c) as [[s1 v]| | |]; simpl in Hw; try done.
    - destruct Hw as (Hi1 & _ & Ha & He1).
      assert (He' : m_ext (s_mem s1) = None) by (destruct c; try done; by apply He1).
      assert (Ha' : aop (view s) c = Ok (view s1, v)) by (destruct c; done).
      destruct (IH s1 Hi1 He' Hne Hok) as (s' & os & H1 & H2). rewrite Ha', H1, H2. simpl. eauto.
    - assert (Ha' : aop (view s) c = Throw).
      { destruct Hw as [Hw|[Hr _]]; [destruct c; done|]. done. }
      destruct (IH s Hi He Hne Hok) as (s' & os & H1 & H2). rewrite Ha', H1, H2. simpl. eauto.
  Qed.

  (** what the writable pointer can become *)
  Definition post {B} (r : res B) (Q : B -> Prop) : Prop := forall a, r = Ok a -> Q a.
  Lemma post_bind {B C} (r : res B) (f : B -> res C) (Q : C -> Prop) : (forall a, r = Ok a -> post (f a) Q) -> post (bind r f) Q.
  Proof. intros H a. destruct r as [b| | |]; simpl; try done. intros E. by apply (H b eq_refl). Qed.
  Lemma post_ok {B} (a : B) (Q : B -> Prop) : Q a -> post (Ok a) Q.
  Proof. intros H b [=<-]; done. Qed.
  Lemma post_if {B} (c : bool) (r1 r2 : res B) Q : post r1 Q -> post r2 Q -> post (if c then r1 else r2) Q.
  Proof. destruct c; done. Qed.
  Lemma post_throw {B} (c : bool) (r : res B) Q : post r Q -> post (ifthrow c r) Q.
  Proof. destruct c; done. Qed.
  Definition moved (m m' : mem) : Prop := (m_int m' = m_int m /\ m_own m' = m_own m) \/ m_int m' = None \/ m_own m' = true.
  Lemma reserve_moved (h : heap A) m n : post (reserve_ h m n) (fun '(_, m') => moved m m').
  Proof.
    unfold reserve_. apply post_if; [apply post_ok; by left|]. apply post_bind. intros c _. cbn. apply post_bind. intros h' _.
    apply post_ok. right; by right.
  Qed.
  Lemma foldM_post {X Y} (f : Y -> X -> res Y) (I : Y -> Prop) (l : list X) : (forall (s : Y) x, I s -> post (f s x) I) -> forall s : Y, I s -> post (foldM f l s) I.
  Proof.
    intros Hf. induction l as [|x l IH]; intros s Hs; [by apply post_ok|]. simpl. apply post_bind. intros s' Es. apply IH. exact (Hf _ _ Hs _ Es).
  Qed.
  Lemma step_moved s c : post (step s c) (fun '(s', _) => moved (s_mem s) (s_mem s') \/ exists b n nc', c = UseRW b n nc' /\ m_int (s_mem s') = Some b).
  Proof.
    assert (Hl : forall nc r, post r (fun '(_, m') => moved (s_mem s) m') ->
      post (@lift A nc r) (fun '(s', _) => moved (s_mem s) (s_mem s') \/ exists b n nc', c = UseRW b n nc' /\ m_int (s_mem s') = Some b)).
    { intros nc r Hr. apply post_bind. intros [h m] E. apply post_ok. left. exact (Hr _ E). }
    assert (Hall : forall n (h : heap A), post (malloc_ h (s_mem s) n) (fun '(_, m') => moved (s_mem s) m')).
    { intros n h. apply post_bind. intros [h' m'] _. cbn. apply post_ok. right; by right. }
    destruct c as [nt nc'|nt nc'|n|nt| |x| |k|id x k|x|nc' l| |k cells|k cells nt nc'|b k nt nc'|b nt nc']; unfold step.
    - apply Hl, Hall.
    - apply post_if; apply Hl; [apply Hall|apply post_ok; by left].
    - apply post_throw, Hl, reserve_moved.
    - apply post_throw, Hl. unfold reAlloc_. apply post_if; [apply post_ok; by left|]. apply post_bind. intros c _. cbn. apply post_bind. intros h' _.
      apply post_ok. right; by right.
    - apply Hl, reserve_moved.
    - apply post_throw, Hl. apply post_bind. intros [h1 m1] E1. apply post_bind. intros p _. apply post_bind. intros h2 _. apply post_ok.
      assert (Hm : moved (s_mem s) m1).
      { destruct (m_nalloc _ <=? _) eqn:E; [exact (reserve_moved _ _ _ _ E1)|]. injection E1 as <- <-. by left. }
      exact Hm.
    - apply post_throw. apply post_bind. intros [m1 x] E1. apply post_ok. left. revert E1. unfold popBack. destruct (0 <? _); [|done].
      destruct (readCell _ _ _); try done. intros [=<- <-]. by left.
    - apply post_throw, Hl. unfold insertAtTheEnd_. apply post_bind. intros p _. apply post_bind. intros [[h1 m1] p1] E1. apply post_ok.
      apply (foldM_post _ (fun '(_, m1, _) => moved (s_mem s) m1) k) in E1; [done| |by left]. clear E1 h1 m1 p1.
      intros [[h1 m1] p1] x Hm. apply post_bind. intros [[h2 m2] p2] E2. apply post_bind. intros h3 _. apply post_ok.
      assert (Hm2 : moved (s_mem s) m2); [|exact Hm2]. destruct (m_nalloc m1 <=? m_nb m1).
      + destruct (reserve_ h1 m1 _) as [[h4 m4]| | |] eqn:E4; simpl in E2; try done. destruct (getPointer m4); simpl in E2; try done.
        injection E2 as <- <- <-. unfold reserve_ in E4. destruct (m_nalloc m1 =? _); [injection E4 as <- <-; done|].
        destruct (copyPrefix _ _ _ _); simpl in E4; try done. destruct (if m_own m1 then _ else _); simpl in E4; try done. injection E4 as <- <-.
        right; by right.
      + injection E2 as <- <- <-. done.
    - apply Hl. apply post_bind. intros [h1 m1] E1. apply post_bind. intros p _. apply post_bind. intros h2 _. apply post_bind. intros [h3 i] _. apply post_ok.
      assert (Hm : moved (s_mem s) m1).
      { destruct (m_nalloc _ <=? _) eqn:E; [exact (reserve_moved _ _ _ _ E1)|]. injection E1 as <- <-. by left. }
      exact Hm.
    - apply post_throw. apply post_bind. intros h1 _. apply post_ok. left; by left.
    - apply post_bind. intros [h1 m1] E1. apply post_bind. intros p _. apply post_bind. intros h2 _. apply post_ok. left. cbn [s_mem].
      destruct (allocNeeded _ _ _); [exact (Hall _ _ _ E1)|]. injection E1 as <- <-. by left.
    - apply Hl. apply post_bind. intros h1 _. apply post_ok. right; by left.
    - apply post_ok. left; by left.
    - apply Hl. apply post_bind. intros [h1 m1] _. apply post_ok. right; by right.
    - apply Hl. apply post_bind. intros [h1 m1] _. apply post_ok. right; by left.
    - apply post_bind. intros [h1 m1] E1. apply post_ok. right. exists b, nt, nc'. split; [done|].
      revert E1. unfold useRW. destruct (destroy _ _) as [[? ?]| | |]; try done. intros [=<- <-]. done.
  Qed.

  Lemma session_client cs b blk : forall s s' os, inv s -> session_ok s cs -> s_heap s @ b = Some blk -> b_array blk = false ->
    m_int (s_mem s) <> Some b -> Forall (not_rw b) cs -> session step s cs = Ok (s', os) -> s_heap s' @ b = Some blk /\ m_int (s_mem s') <> Some b.
  Proof.
    induction cs as [|c cs IH]; intros s s' os Hi Hok Hb Ha Hm Hrw; [intros [=<- <-]; done|]. destruct Hok as [Hc Hok].
    apply Forall_cons in Hrw as [Hr Hrw]. cbn [session].
    pose proof (step_wp s c Hi Hc) as Hw. pose proof (step_moved s c) as Hmv. destruct (step s c) as [[s1 v]| | |]; simpl in Hw; try done.
    - destruct Hw as (Hi1 & Hs & _). specialize (Hmv _ eq_refl). cbn in Hmv.
      assert (Hb1 : s_heap s1 @ b = Some blk) by (apply Hs; done).
      assert (Hm1 : m_int (s_mem s1) <> Some b).
      { destruct Hmv as [[[E _]|[E|E]]|(b' & n & c' & -> & E)].
        - rewrite E. done.
        - rewrite E. done.
        - intros Hx. destruct Hi1 as ((_ & _ & _ & Hp) & _). unfold ptr_ok, constPointer in Hp. rewrite Hx in Hp.
          destruct Hp as (blk' & Hb' & _ & Ha' & _). rewrite Hb1 in Hb'. injection Hb' as <-. congruence.
        - simpl in Hr. congruence. }
      intros E. destruct (session step s1 cs) as [[s2 os2]| | |] eqn:E2; simpl in E; try done. injection E as <- _.
      exact (IH s1 s2 os2 Hi1 Hok Hb1 Ha Hm1 Hrw E2).
    - intros E. destruct (session step s cs) as [[s2 os2]| | |] eqn:E2; simpl in E; try done. injection E as <- _.
      exact (IH s s2 os2 Hi Hok Hb Ha Hm Hrw E2).
  Qed.

  Lemma inv_fresh : inv fresh.
  Proof.
    unfold inv, fresh; simpl. split; [|split; [done|split; [exists 0; done|done]]]. apply good_m0. intros b blk. rewrite zlook_nil. done.
  Qed.
  Lemma session_app cs1 : forall cs2 s, session step s (cs1 ++ cs2) =
    let* (s1, o1) := session step s cs1 in let* (s2, o2) := session step s1 cs2 in Ok (s2, o1 ++ o2).
  Proof.
    induction cs1 as [|c cs1 IH]; intros cs2 s; cbn [session app bind].
    - destruct (session step s cs2) as [[? ?]| | |]; done.
    - destruct (step s c) as [[s1 v]| | |]; try done; rewrite IH; [destruct (session step s1 cs1) as [[s2 o2]| | |]|destruct (session step s cs1) as [[s2 o2]| | |]];
        try done; cbn [bind]; destruct (session step s2 cs2) as [[s3 o3]| | |]; done.
  Qed.
  Lemma session_ok_app cs1 : forall cs2 s s1 o1, session_ok s (cs1 ++ cs2) -> session step s cs1 = Ok (s1, o1) -> session_ok s cs1 /\ session_ok s1 cs2.
  Proof.
    induction cs1 as [|c cs1 IH]; intros cs2 s s1 o1; cbn [session app].
    - intros H [=<- _]. done.
    - cbn [session_ok]. intros [Hc Hok]. destruct (step s c) as [[s' v]| | |]; try done.
      + intros E. destruct (session step s' cs1) as [[s2 o2]| | |] eqn:E2; simpl in E; try done. injection E as <- _.
        destruct (IH _ _ _ _ Hok E2). done.
      + intros E. destruct (session step s cs1) as [[s2 o2]| | |] eqn:E2; simpl in E; try done. injection E as <- _.
        destruct (IH _ _ _ _ Hok E2). done.
  Qed.
  Lemma freed_inv s b blk : inv s -> s_heap s @ b = Some blk ->
    b_freed blk = if b_array blk then (if m_own (s_mem s) && bool_decide (m_int (s_mem s) = Some b) then 0 else 1) else 0.
  Proof.
    intros ((_ & _ & Hf & _) & _) Hb. rewrite (Hf _ _ Hb). unfold cur. destruct (m_own (s_mem s)); simpl; done.
  Qed.

  (** ** the statements *)
  Lemma C33_session_ok cs : Forall no_external cs -> session_ok fresh cs ->
    exists s os, session step fresh cs = Ok (s, os) /\ session aop (0, None) cs = Ok (view s, os).
  Proof. intros Hn Hok. apply (session_abs cs fresh inv_fresh); done. Qed.

  Lemma C33_step_ok cs c s os : session_ok fresh (cs ++ [c]) -> session step fresh cs = Ok (s, os) ->
    match step s c with
    | Ok (s', v) =>
      match c with
      | UseExternal b _ n c' | UseRW b n c' =>
        v = None /\ exists blk, s_heap s @ b = Some blk /\ view s' = (c', Some (take (Z.to_nat (n * c')) (b_cells blk)))
      | _ => aop (view s) c = Ok (view s', v)
      end
    | Throw => match c with
      | UseExternal _ _ _ _ | UseRW _ _ _ => False
      | Push _ | Insert _ | Write _ _ _ | Fill _ | DeepCopy _ _ => aop (view s) c = Throw \/ read_only s
      | _ => aop (view s) c = Throw
      end
    | _ => False
    end.
  Proof.
    intros Hok E. destruct (session_ok_app cs [c] _ _ _ Hok E) as [Ho1 Ho2].
    destruct (session_inv cs fresh inv_fresh Ho1) as (s0 & os0 & E0 & Hi). rewrite E in E0. injection E0 as <- <-.
    destruct Ho2 as [Hc _]. pose proof (step_wp s c Hi Hc) as Hw. destruct (step s c) as [[s' v]| | |]; simpl in Hw; try done.
    - apply Hw.
    - destruct c; simpl in Hw; tauto.
  Qed.

  Lemma C34_session_ok cs : session_ok fresh cs ->
    exists s os, session step fresh cs = Ok (s, os) /\
      forall b blk, s_heap s @ b = Some blk ->
        b_freed blk = if b_array blk then (if m_own (s_mem s) && bool_decide (m_int (s_mem s) = Some b) then 0 else 1) else 0.
  Proof.
    intros Hok. destruct (session_inv cs fresh inv_fresh Hok) as (s & os & E & Hi). exists s, os. split; [done|].
    intros b blk. by apply freed_inv.
  Qed.
  Lemma C34_destroyed_ok cs : session_ok fresh (cs ++ [Desallocate]) ->
    exists s os, session step fresh (cs ++ [Desallocate]) = Ok (s, os) /\
      forall b blk, s_heap s @ b = Some blk -> b_freed blk = if b_array blk then 1 else 0.
  Proof.
    intros Hok. destruct (session_inv _ fresh inv_fresh Hok) as (s & os & E & Hi). exists s, os. split; [done|].
    intros b blk Hb. rewrite (freed_inv s b blk Hi Hb). replace (m_own (s_mem s)) with false; [done|]. symmetry.
    rewrite session_app in E. destruct (session step fresh cs) as [[s1 o1]| | |] eqn:E1; simpl in E; try done.
    destruct (session_ok_app cs _ _ _ _ Hok E1) as [Ho1 _]. destruct (session_inv cs fresh inv_fresh Ho1) as (s0 & os0 & E0 & Hi1).
    rewrite E1 in E0. injection E0 as <- <-. pose proof (destroy_wp _ _ (proj1 Hi1)) as Hw.
    destruct (destroy (s_heap s1) (s_mem s1)) as [[h1 m1]| | |]; simpl in Hw; try done. destruct Hw as (-> & _). simpl in E. injection E as <- _. done.
  Qed.
  Lemma C34_client_ok cs1 cs2 s1 s2 o1 o2 b blk : session_ok fresh (cs1 ++ cs2) ->
    session step fresh cs1 = Ok (s1, o1) -> session step fresh (cs1 ++ cs2) = Ok (s2, o2) ->
    s_heap s1 @ b = Some blk -> b_array blk = false -> Forall (not_rw b) (cs1 ++ cs2) -> s_heap s2 @ b = Some blk.
  Proof.
    intros Hok E1 E2 Hb Ha Hrw. destruct (session_ok_app cs1 cs2 _ _ _ Hok E1) as [Ho1 Ho2].
    destruct (session_inv cs1 fresh inv_fresh Ho1) as (s0 & os0 & E0 & Hi). rewrite E1 in E0. injection E0 as <- <-.
    apply Forall_app in Hrw as [Hr1 Hr2]. rewrite session_app, E1 in E2. cbn [bind] in E2.
    destruct (session step s1 cs2) as [[s3 o3]| | |] eqn:E3; simpl in E2; try done. injection E2 as <- _.
    assert (Hm : m_int (s_mem s1) <> Some b); [|exact (proj1 (session_client cs2 b blk s1 s3 o3 Hi Ho2 Hb Ha Hm Hr2 E3))].
    assert (Hgen : forall cs s s' os, inv s -> session_ok s cs -> (forall blk, s_heap s @ b = Some blk -> m_int (s_mem s) = Some b -> b_array blk = true) ->
      Forall (not_rw b) cs -> session step s cs = Ok (s', os) -> forall blk, s_heap s' @ b = Some blk -> m_int (s_mem s') = Some b -> b_array blk = true).
    { clear. induction cs as [|c cs IH]; intros s s' os Hi Hok Hc0 Hrw; [intros [=<- <-]; done|]. destruct Hok as [Hc Hok].
      apply Forall_cons in Hrw as [Hr Hrw]. cbn [session].
      pose proof (step_wp s c Hi Hc) as Hw. pose proof (step_moved s c) as Hmv. destruct (step s c) as [[s1 v]| | |]; simpl in Hw; try done.
      - destruct Hw as (Hi1 & Hs & _). specialize (Hmv _ eq_refl). cbn in Hmv. intros E.
        destruct (session step s1 cs) as [[s2 os2]| | |] eqn:E2; simpl in E; try done. injection E as <- _.
        refine (IH s1 s2 os2 Hi1 Hok _ Hrw E2). intros blk Hb Hm. destruct Hi1 as ((_ & _ & _ & Hp) & _). unfold ptr_ok, constPointer in Hp.
        rewrite Hm in Hp. destruct Hp as (blk1 & Hb1 & _ & Ha1 & _). rewrite Hb in Hb1. injection Hb1 as <-. rewrite Ha1.
        destruct Hmv as [[[Ei Eo]|[Ei|Ei]]|(b' & n & c' & -> & Ei)]; [|congruence|done|simpl in Hr; congruence].
        rewrite Hm in Ei. symmetry in Ei. pose proof Hi as ((_ & _ & _ & Hp) & _). unfold ptr_ok, constPointer in Hp. rewrite Ei in Hp.
        destruct Hp as (blk0 & Hb0 & _ & Ha0 & _). pose proof (Hc0 _ Hb0 Ei) as Hx. congruence.
      - intros E. destruct (session step s cs) as [[s2 os2]| | |] eqn:E2; simpl in E; try done. injection E as <- _.
        exact (IH s s2 os2 Hi Hok Hc0 Hrw E2). }
    intros Hm. rewrite (Hgen cs1 fresh s1 o1 inv_fresh Ho1) with (blk := blk) in Ha; try done.
  Qed.
End Proofs.
