(** Proofs for the buffer of an array: writes. *)
From Verif Require Import Base DataArray ArrLib BufModel BufSpec BufProofs.
From Coq Require Import ZifyBool ZifyNat.

Section Proofs.
  Context {A : Type}.
  Implicit Types (h : heap A) (m : mem).

  Definition put h b (blk : block A) c : heap A := zset h b (Blk (b_kind blk) c (b_freed blk) (b_array blk)).
  Lemma put_id h b blk : h @ b = Some blk -> put h b blk (b_cells blk) = h.
  Proof.
    intros Hb. unfold put. pose proof (zlook_Some_lt _ _ _ Hb). apply zlook_ext. intros i. rewrite zlook_zset by lia.
    destruct (Z.eqb_spec i b) as [E|E]; [|done]. rewrite E, Hb. destruct blk; done.
  Qed.
  Lemma put_write h b blk c i x : h @ b = Some blk -> b_freed blk = 0 -> 0 <= i < zlen c ->
    writeCell (put h b blk c) (Some b) i x = Ok (put h b blk (zset c i (Some x))).
  Proof.
    intros Hb Hf Hi. pose proof (zlook_Some_lt _ _ _ Hb) as Hlt. unfold writeCell, put at 1. unfold rd.
    rewrite zlook_zset by lia. rewrite Z.eqb_refl. cbn [bind b_freed b_cells b_kind b_array]. rewrite Hf. cbn [negb Z.eqb ubif].
    unfold wr at 1. replace ((0 <=? i) && (i <? zlen c)) with true by lia. cbn [bind]. unfold wr, put. rewrite zlen_zset.
    replace ((0 <=? b) && (b <? zlen h)) with true by lia. f_equal. unfold zset. rewrite list_insert_insert, Hf. done.
  Qed.

  Lemma cell_write h b blk i x : h @ b = Some blk -> b_freed blk = 0 -> 0 <= i < zlen (b_cells blk) ->
    writeCell h (Some b) i x = Ok (put h b blk (zset (b_cells blk) i (Some x))).
  Proof. intros Hb Hf Hi. rewrite <- (put_write h b blk (b_cells blk) i x Hb Hf Hi). rewrite put_id; done. Qed.

  Lemma own_same h h' m : good h m -> m_own m = true -> same h h' (m_int m) -> same h h' None.
  Proof.
    intros (_ & _ & _ & Hp) Ho Hs b blk Hb Ha _. apply Hs; try done. intros Hi. unfold ptr_ok, constPointer in Hp. rewrite Hi in Hp.
    destruct Hp as (blk' & Hb' & _ & Ha' & _). rewrite Hb in Hb'. injection Hb' as <-. congruence.
  Qed.

  Lemma take_snoc_zset (l : list (option A)) n x : 0 <= n < zlen l ->
    take (Z.to_nat (n + 1)) (zset l n x) = take (Z.to_nat n) l ++ [x].
  Proof.
    intros Hn. apply zlook_ext. intros i. destruct (Z.ltb_spec i 0) as [Hi|Hi]; [rewrite !zlook_neg by lia; done|].
    rewrite zlook_app, zlen_take. destruct (Z.ltb_spec i (Z.min (Z.of_nat (Z.to_nat n)) (zlen l))) as [E|E].
    - rewrite !zlook_take by lia. rewrite zlook_zset by lia. replace (i =? n) with false by lia. done.
    - destruct (Z.eqb_spec i n) as [->|Ei].
      + rewrite zlook_take by lia. rewrite zlook_zset by lia. rewrite Z.eqb_refl.
        replace (n - Z.min (Z.of_nat (Z.to_nat n)) (zlen l)) with 0 by lia. done.
      + rewrite !zlook_ge; [done| |]; [change (zlen [x]) with 1; lia|]. rewrite zlen_take, zlen_zset. lia.
  Qed.

  (** the pointer is writable and there is room for one more *)
  Lemma push_room h m l x : good h m -> vw h m = Some l -> m_nb m < m_nalloc m -> m_ext m = None ->
    exists h', writeCell h (m_int m) (m_nb m) x = Ok h' /\
      let m' := Mem (m_nb m + 1) (m_nalloc m) (m_own m) (m_int m) (m_ext m) (m_dealloc m) in
      good h' m' /\ vw h' m' = Some (l ++ [Some x]) /\ same h h' (m_int m).
  Proof.
    intros Hg Ev Hlt He. destruct (good_some _ _ _ Hg Ev) as (b & blk & Hp & Hb & Hf & Hl & El).
    assert (Hi : m_int m = Some b). { unfold constPointer in Hp. destruct (m_int m); congruence. }
    pose proof Hg as (Hnb & _). rewrite Hi. rewrite (cell_write h b blk) by (done || lia). eexists. split; [done|].
    destruct (setcells h m b blk (zset (b_cells blk) (m_nb m) (Some x)) (m_nb m + 1) Hg Hp Hb) as (H1 & H2 & H3).
    - rewrite zlen_zset. done.
    - lia.
    - rewrite Hi in *. split; [done|]. split; [|by apply H3]. unfold put. rewrite H2. f_equal. rewrite El. apply take_snoc_zset. lia.
  Qed.

  Lemma grow_wp h m : good h m ->
    wp (if m_nalloc m <=? m_nb m then reserve_ h m (if 0 <? m_nalloc m then 2 * m_nalloc m else 1) else Ok (h, m))
      (fun '(h', m') => good h' m' /\ vw h' m' = Some (default [] (vw h m)) /\ m_nb m' = m_nb m /\ m_nb m' < m_nalloc m' /\
         ((m' = m /\ h' = h) \/ (m_ext m' = None /\ m_own m' = true)) /\ same h h' None) False.
  Proof.
    intros Hg. pose proof Hg as (Hnb & _). destruct (Z.leb_spec (m_nalloc m) (m_nb m)) as [E|E].
    - set (n := if 0 <? m_nalloc m then _ else _). assert (Hn : 1 <= n /\ m_nb m < n) by (subst n; destruct (Z.ltb_spec 0 (m_nalloc m)); lia).
      clearbody n. eapply wp_mono; [apply (reserve_wp h m n Hg); lia| |done].
      intros [h' m'] (H1 & H2 & H3 & H4 & H5 & H6). split; [done|]. split.
      { rewrite H4. replace (n =? 0) with false by lia. simpl. f_equal. rewrite take_ge; [done|].
        destruct (vw h m) as [l|] eqn:Ev; simpl; [|lia]. pose proof (good_len _ _ _ Hg Ev). unfold zlen in *. lia. }
      split; [lia|]. split; [lia|]. split; [|done]. replace (m_nalloc m =? n) with false in H5 by lia. by right.
    - simpl. split; [done|]. destruct (vw h m) as [l|] eqn:Ev.
      + split_and!; try done; [by left|apply same_refl].
      + destruct (good_none _ _ Hg Ev) as (_ & ? & ? & _). lia.
  Qed.

  Lemma same_grow h h' h'' m m' : good h' m' -> same h h' None -> ((m' = m /\ h' = h) \/ (m_ext m' = None /\ m_own m' = true)) ->
    same h' h'' (m_int m') -> same h h'' (m_int m).
  Proof.
    intros Hg Hs Hc Hs'. destruct Hc as [[-> ->]|[_ Ho]]; [done|]. apply same_weak. eapply same_trans; [done|].
    eapply own_same; done.
  Qed.

  Lemma pushBack_wp h m x : good h m ->
    wp (pushBack h m x)
      (fun '(h', m') => good h' m' /\ vw h' m' = Some (default [] (vw h m) ++ [Some x]) /\ m_nb m' = m_nb m + 1 /\ m_ext m' = None /\
         same h h' (m_int m)) (m_ext m <> None).
  Proof.
    intros Hg. unfold pushBack. eapply wp_bind'; [eapply wp_mono; [apply grow_wp, Hg|intros ? H; exact H|done]|].
    intros [h1 m1] (H1 & H2 & H3 & H4 & H5 & H6).
    eapply wp_bind'; [eapply wp_mono; [apply (getPointer_wp _ _ _ H1 H2)|intros ? H; exact H|]|].
    { intros He. destruct H5 as [[-> _]|[? _]]; done. }
    intros p (-> & _ & He). destruct (push_room _ _ _ x H1 H2 H4 He) as (h' & -> & G1 & G2 & G3). simpl.
    split_and!; try done; [lia|]. exact (same_grow h h1 h' m m1 H1 H6 H5 G3).
  Qed.

  Lemma popBack_wp h m : good h m ->
    wp (popBack h m)
      (fun '(m', x) => exists l, vw h m = Some l /\ 0 < zlen l /\ l @ (zlen l - 1) = Some x /\ good h m' /\ vw h m' = Some (take (Z.to_nat (zlen l - 1)) l) /\
         m_nb m' = m_nb m - 1 /\ m_ext m' = m_ext m /\ m_int m' = m_int m) (zlen (default [] (vw h m)) = 0).
  Proof.
    intros Hg. pose proof Hg as (Hnb & _). unfold popBack. destruct (vw h m) as [l|] eqn:Ev.
    2:{ destruct (good_none _ _ Hg Ev) as (_ & H0 & _). rewrite H0. done. }
    pose proof (good_len _ _ _ Hg Ev) as Hl. destruct (Z.ltb_spec 0 (m_nb m)) as [E|E]; simpl; [|lia].
    destruct (good_some _ _ _ Hg Ev) as (b & blk & Hp & Hb & Hf & Hle & El). unfold readCell. rewrite Hp. unfold rd. rewrite Hb. cbn [bind].
    rewrite Hf. cbn [negb Z.eqb ubif].
    assert (Hx : b_cells blk @ (m_nb m - 1) = l @ (m_nb m - 1)). { rewrite El. rewrite zlook_take by lia. done. }
    rewrite Hx. destruct (l @ (m_nb m - 1)) as [x|] eqn:Ex.
    2:{ apply zlook_None in Ex. lia. }
    simpl. exists l. rewrite Hl. split; [done|]. split; [done|]. split; [done|].
    destruct (setcells h m b blk (b_cells blk) (m_nb m - 1) Hg Hp Hb eq_refl) as (G1 & G2 & _); [lia|].
    fold (put h b blk (b_cells blk)) in G1, G2. rewrite put_id in G1, G2 by done. split_and!; try done. rewrite G2. f_equal. rewrite El.
    rewrite take_take. f_equal. lia.
  Qed.

  Lemma insert_wp h m k : good h m ->
    wp (insertAtTheEnd_ h m k)
      (fun '(h', m') => good h' m' /\ vw h' m' = (match vw h m, k with None, [] => None | _, _ => Some (default [] (vw h m) ++ (Some <$> k)) end) /\
         m_nb m' = m_nb m + zlen k /\ m_ext m' = None /\ same h h' (m_int m)) (m_ext m <> None).
  Proof.
    intros Hg. unfold insertAtTheEnd_.
    assert (Hgp : wp (getPointer m) (fun p => p = m_int m /\ m_ext m = None) (m_ext m <> None)).
    { destruct Hg as (_ & Hx & _). unfold getPointer. destruct (m_int m), (m_ext m); simpl; try done. destruct Hx; done. }
    eapply wp_bind'; [exact Hgp|]. intros p (-> & He).
    eapply wp_bind'.
    - apply (wp_foldM _ (fun pre '(h', m', p) => p = m_int m' /\ good h' m' /\
         vw h' m' = (match vw h m, pre with None, [] => None | _, _ => Some (default [] (vw h m) ++ (Some <$> pre)) end) /\
         m_nb m' = m_nb m + zlen pre /\ m_ext m' = None /\ same h h' (m_int m) /\ (m_int m' = m_int m \/ m_own m' = true)) k
         (h, m, m_int m) (fun '(h', m', p) => good h' m' /\
         vw h' m' = (match vw h m, k with None, [] => None | _, _ => Some (default [] (vw h m) ++ (Some <$> k)) end) /\
         m_nb m' = m_nb m + zlen k /\ m_ext m' = None /\ same h h' (m_int m))).
      + split_and!; try done.
        * destruct (vw h m); simpl; [rewrite app_nil_r|]; done.
        * change (zlen (@nil A)) with 0. lia.
        * apply same_refl.
        * by left.
      + intros pre x post [[h1 m1] p] Hk (-> & Hg1 & Hv1 & Hn1 & He1 & Hs1 & Hi1).
        assert (Hcell : default [] (vw h1 m1) = default [] (vw h m) ++ (Some <$> pre)).
        { rewrite Hv1. destruct (vw h m), pre; simpl; try done. }
        eapply (wp_bind' _ _ (fun '(h2, m2, p) => p = m_int m2 /\ good h2 m2 /\ vw h2 m2 = Some (default [] (vw h1 m1)) /\ m_nb m2 = m_nb m1 /\
           m_nb m2 < m_nalloc m2 /\ m_ext m2 = None /\ (m_int m2 = m_int m \/ m_own m2 = true) /\ same h h2 (m_int m))).
        * pose proof (grow_wp h1 m1 Hg1) as Hw. destruct (m_nalloc m1 <=? m_nb m1) eqn:Ele.
          -- eapply wp_bind'; [eapply wp_mono; [exact Hw|intros ? H; exact H|done]|].
             intros [h2 m2] (H1 & H2 & H3 & H4 & H5 & H6).
             assert (He2 : m_ext m2 = None) by (destruct H5 as [[-> _]|[? _]]; done).
             eapply wp_bind'; [eapply wp_mono; [apply (getPointer_wp _ _ _ H1 H2)|intros ? H; exact H|done]|].
             intros p (-> & _ & _). simpl. split_and!; try done.
             ++ destruct H5 as [[-> _]|[_ ?]]; [done|by right].
             ++ eapply same_trans; [done|]. by apply same_weak.
          -- simpl in Hw. destruct Hw as (H1 & H2 & H3 & H4 & H5 & H6). simpl. split_and!; try done.
        * intros [[h2 m2] p] (-> & H1 & H2 & H3 & H4 & He2 & Hi2 & Hs2).
          destruct (push_room _ _ _ x H1 H2 H4 He2) as (h' & -> & G1 & G2 & G3). simpl. split_and!; try done.
          -- rewrite G2, Hcell, fmap_app, app_assoc. simpl. destruct (vw h m), pre; done.
          -- rewrite zlen_app. change (zlen [x]) with 1. lia.
          -- destruct Hi2 as [Hi2|Ho].
             ++ eapply same_trans; [done|]. rewrite <- Hi2. done.
             ++ eapply same_trans; [done|]. apply same_weak. eapply own_same; [exact H1|done|done].
      + intros [[h1 m1] p] (-> & Hg1 & Hv1 & Hn1 & He1 & Hs1 & _). split_and!; done.
    - intros [[h1 m1] p] H. simpl. exact H.
  Qed.

  (** [k] written from position [d] on *)
  Definition over (c : list (option A)) (d : Z) (k : list A) : list (option A) :=
    take (Z.to_nat d) c ++ (Some <$> k) ++ drop (Z.to_nat (d + zlen k)) c.
  Lemma over_nil c d : over c d [] = c.
  Proof. unfold over. change (zlen (@nil A)) with 0. rewrite Z.add_0_r. simpl. apply take_drop. Qed.
  Lemma zlen_over c d k : 0 <= d -> d + zlen k <= zlen c -> zlen (over c d k) = zlen c.
  Proof.
    intros Hd Hk. pose proof (zlen_nonneg k). unfold over. rewrite !zlen_app, zlen_take, zlen_fmap, zlen_drop. lia.
  Qed.
  Lemma over_look c d k i : 0 <= d -> d + zlen k <= zlen c -> 0 <= i ->
    over c d k @ i = if (d <=? i) && (i <? d + zlen k) then Some <$> k @ (i - d) else c @ i.
  Proof.
    intros Hd Hk Hi. pose proof (zlen_nonneg k). unfold over. rewrite zlook_app, zlen_take.
    destruct (Z.ltb_spec i (Z.min (Z.of_nat (Z.to_nat d)) (zlen c))) as [E|E].
    - rewrite zlook_take by lia. replace ((d <=? i) && _) with false by lia. done.
    - replace (Z.min (Z.of_nat (Z.to_nat d)) (zlen c)) with d by lia. rewrite zlook_app, zlen_fmap.
      destruct (Z.ltb_spec (i - d) (zlen k)) as [E2|E2].
      + replace ((d <=? i) && (i <? d + zlen k)) with true by lia. rewrite zlook_fmap. done.
      + replace ((d <=? i) && (i <? d + zlen k)) with false by lia. rewrite zlook_drop by lia. f_equal. lia.
  Qed.
  Lemma over_snoc c d k x : 0 <= d -> d + zlen k < zlen c -> zset (over c d k) (d + zlen k) (Some x) = over c d (k ++ [x]).
  Proof.
    intros Hd Hk. pose proof (zlen_nonneg k). apply zlook_ext. intros i.
    destruct (Z.ltb_spec i 0) as [Hi|Hi]; [rewrite !zlook_neg by lia; done|].
    rewrite zlook_zset by (rewrite zlen_over; lia). rewrite !over_look by (rewrite ?zlen_app; change (zlen [x]) with 1; lia).
    rewrite zlen_app. change (zlen [x]) with 1. rewrite zlook_app.
    destruct (Z.eqb_spec i (d + zlen k)) as [E|E].
    - replace ((d <=? i) && (i <? d + (zlen k + 1))) with true by lia. replace (i - d <? zlen k) with false by lia.
      replace (i - d - zlen k) with 0 by lia. done.
    - destruct (Z.ltb_spec i (d + zlen k)) as [E2|E2].
      + destruct (Z.leb_spec d i); simpl; [|done]. replace (i <? d + (zlen k + 1)) with true by lia. simpl.
        replace (i - d <? zlen k) with true by lia. done.
      + rewrite andb_false_r. replace (i <? d + (zlen k + 1)) with false by lia. rewrite andb_false_r. done.
  Qed.
  Lemma write_run h b blk k d c : h @ b = Some blk -> b_freed blk = 0 -> 0 <= d -> d + zlen k <= zlen c ->
    foldM (fun '(h, i) y => let* h := writeCell h (Some b) i y in Ok (h, i + 1)) k (put h b blk c, d) = Ok (put h b blk (over c d k), d + zlen k).
  Proof.
    intros Hb Hf Hd Hk. apply wp_ok_eq.
    apply (wp_foldM _ (fun pre '(h', i) => h' = put h b blk (over c d pre) /\ i = d + zlen pre)).
    - change (zlen (@nil A)) with 0. rewrite over_nil, Z.add_0_r. done.
    - intros pre x post [h' i] Hpre [-> ->].
      assert (d + zlen pre < zlen c). { rewrite Hpre, zlen_app in Hk. pose proof (zlen_nonneg post). unfold zlen in Hk |- *. simpl in Hk. lia. }
      pose proof (zlen_nonneg pre).
      rewrite put_write by (rewrite ?zlen_over; done || lia). simpl. rewrite over_snoc by lia. rewrite zlen_app. change (zlen [x]) with 1. split; [done|lia].
    - intros [h' i] [-> ->]. done.
  Qed.

  Lemma take_over c d k n : 0 <= d <= n -> d + zlen k <= zlen c -> n <= zlen c ->
    take (Z.to_nat (Z.max n (d + zlen k))) (over c d k) = over (take (Z.to_nat n) c) d k.
  Proof.
    intros Hd Hk Hn. pose proof (zlen_nonneg k). unfold over. rewrite take_take. replace (Z.to_nat d `min` Z.to_nat n)%nat with (Z.to_nat d) by lia.
    rewrite skipn_firstn_comm. rewrite app_assoc, (app_assoc (take (Z.to_nat d) c)).
    rewrite firstn_app. rewrite app_length, take_length, fmap_length.
    assert (length k = Z.to_nat (zlen k)) by (unfold zlen; lia). assert (length c = Z.to_nat (zlen c)) by (unfold zlen; lia).
    rewrite take_ge by (rewrite app_length, take_length, fmap_length; lia). f_equal. f_equal. lia.
  Qed.

  Lemma write_wp h m id x k : good h m -> 0 <= id <= m_nb m ->
    wp (writeOnPlace_ h m id x k)
      (fun '(h', m') => good h' m' /\ vw h' m' = Some (over (default [] (vw h m)) id (x :: k)) /\
         m_nb m' = Z.max (m_nb m) (id + zlen k + 1) /\ m_ext m' = None /\ same h h' (m_int m)) (m_ext m <> None).
  Proof.
    intros Hg Hid. pose proof Hg as (Hnb & _). pose proof (zlen_nonneg k) as Hk. unfold writeOnPlace_.
    eapply (wp_bind' _ _ (fun '(h', m') => good h' m' /\ vw h' m' = Some (default [] (vw h m)) /\ m_nb m' = m_nb m /\ id + zlen k < m_nalloc m' /\
         ((m' = m /\ h' = h) \/ (m_ext m' = None /\ m_own m' = true)) /\ same h h' None)).
    { destruct (Z.leb_spec (m_nalloc m) (id + zlen k)) as [E|E].
      - eapply (wp_mono _ _ _ False); [apply (reserve_wp h m _ Hg); lia| |done].
        intros [h' m'] (H1 & H2 & H3 & H4 & H5 & H6). split; [done|].
        split.
        { rewrite H4. replace (2 * m_nb m + zlen k + 1 =? 0) with false by lia. simpl. f_equal. apply take_ge.
          destruct (vw h m) as [l|] eqn:Ev; simpl; [|lia]. pose proof (good_len _ _ _ Hg Ev). unfold zlen in *. lia. }
        split; [lia|]. split; [lia|]. split; [|done]. destruct (m_nalloc m =? _); [by left|by right].
      - simpl. split; [done|]. destruct (vw h m) as [l|] eqn:Ev.
        + split_and!; try done; [by left|apply same_refl].
        + destruct (good_none _ _ Hg Ev) as (_ & ? & ? & _). lia. }
    intros [h1 m1] (H1 & H2 & H3 & H4 & H5 & H6).
    eapply wp_bind'; [eapply wp_mono; [apply (getPointer_wp _ _ _ H1 H2)|intros ? H; exact H|]|].
    { intros He. destruct H5 as [[-> _]|[? _]]; done. }
    intros p (-> & Hpp & He). destruct (good_some _ _ _ H1 H2) as (b & blk & Hp & Hb & Hf & Hl & El). rewrite Hpp, Hp.
    rewrite (cell_write h1 b blk) by (done || lia). cbn [bind].
    replace (zset (b_cells blk) id (Some x)) with (over (b_cells blk) id [x]).
    2:{ replace (over (b_cells blk) id [x]) with (over (b_cells blk) id ([] ++ [x])) by done. rewrite <- over_snoc by (change (zlen (@nil A)) with 0; lia).
        change (zlen (@nil A)) with 0. rewrite Z.add_0_r, over_nil. done. }
    assert (Hov : zlen (over (b_cells blk) id [x]) = zlen (b_cells blk)) by (apply zlen_over; change (zlen [x]) with 1; lia).
    assert (Hov2 : over (over (b_cells blk) id [x]) (id + 1) k = over (b_cells blk) id (x :: k)).
    { apply zlook_ext. intros i. destruct (Z.ltb_spec i 0) as [Hi|Hi]; [rewrite !zlook_neg by lia; done|].
      assert (Hxk : zlen (x :: k) = zlen k + 1) by (unfold zlen; simpl; lia).
      rewrite !over_look by (rewrite ?Hov, ?Hxk; change (zlen [x]) with 1; lia). rewrite Hxk. change (zlen [x]) with 1. rewrite (zlook_cons x k).
      destruct (Z.leb_spec (id + 1) i), (Z.ltb_spec i (id + 1 + zlen k)); simpl.
      - replace ((id <=? i) && (i <? id + (zlen k + 1))) with true by lia. replace (i - id =? 0) with false by lia. f_equal. f_equal. lia.
      - replace ((id <=? i) && (i <? id + 1)) with false by lia. replace ((id <=? i) && (i <? id + (zlen k + 1))) with false by lia. done.
      - destruct (Z.eqb_spec (i - id) 0) as [E|E].
        + replace ((id <=? i) && (i <? id + 1)) with true by lia. replace ((id <=? i) && (i <? id + (zlen k + 1))) with true by lia. rewrite E. done.
        + replace ((id <=? i) && (i <? id + 1)) with false by lia. replace ((id <=? i) && (i <? id + (zlen k + 1))) with false by lia. done.
      - replace ((id <=? i) && (i <? id + 1)) with false by lia. replace ((id <=? i) && (i <? id + (zlen k + 1))) with false by lia. done. }
    rewrite (write_run h1 b blk k (id + 1)) by (done || lia). cbn [bind wp]. rewrite Hov2.
    destruct (setcells h1 m1 b blk (over (b_cells blk) id (x :: k)) (Z.max (m_nb m1) (id + zlen k + 1)) H1 Hp Hb) as (G1 & G2 & G3).
    - apply zlen_over; [lia|]. unfold zlen in *; simpl; lia.
    - pose proof H1 as (? & _). lia.
    - rewrite Hpp, Hp in G1, G2. split; [exact G1|]. split; [|split; [simpl; lia|split; [exact He|exact (same_grow h h1 _ m m1 H1 H6 H5 (G3 He))]]].
      unfold put. rewrite G2. f_equal. assert (Hxk : zlen (x :: k) = zlen k + 1) by (unfold zlen; simpl; lia).
      replace (id + zlen k + 1) with (id + zlen (x :: k)) by lia. destruct H1 as (? & _). rewrite take_over by lia. rewrite El. done.
  Qed.

  Lemma over_all c k : zlen k <= zlen c -> take (Z.to_nat (zlen k)) (over c 0 k) = Some <$> k.
  Proof.
    intros Hk. unfold over. simpl. rewrite take_app_le by (rewrite fmap_length; unfold zlen; lia). rewrite take_ge; [done|].
    rewrite fmap_length; unfold zlen; lia.
  Qed.

  (** [for i in [0, |k|): p[i] = k[i]] *)
  Lemma write_loop h b blk k (g : Z -> heap A -> res (heap A)) : h @ b = Some blk -> b_freed blk = 0 -> zlen k <= zlen (b_cells blk) ->
    (forall i x h', k @ i = Some x -> g i h' = writeCell h' (Some b) i x) ->
    forZ 0 (zlen k) g h = Ok (put h b blk (over (b_cells blk) 0 k)).
  Proof.
    intros Hb Hf Hk Hg. pose proof (zlen_nonneg k). apply wp_ok_eq.
    apply (wp_forZ (fun i h' => h' = put h b blk (over (b_cells blk) 0 (take (Z.to_nat i) k)))); [done| | |].
    - simpl. rewrite over_nil. rewrite put_id; done.
    - intros i h' Hi ->. destruct (k @ i) as [x|] eqn:Ex; [|apply zlook_None in Ex; lia].
      rewrite (Hg i x _ Ex). assert (Hlt : zlen (take (Z.to_nat i) k) = i) by (rewrite zlen_take; lia).
      rewrite put_write by (rewrite ?zlen_over; done || lia). simpl.
      replace i with (0 + zlen (take (Z.to_nat i) k)) at 2 by lia. rewrite over_snoc by lia. do 2 f_equal.
      replace (Z.to_nat (i + 1)) with (Datatypes.S (Z.to_nat i)) by lia. symmetry. apply take_S_r.
      unfold zlook in Ex. replace (i <? 0) with false in Ex by lia. done.
    - intros h' ->. rewrite take_ge; [done|]. unfold zlen in *. lia.
  Qed.

  Lemma fill_wp h m x l : good h m -> vw h m = Some l ->
    wp (fill_ h m x) (fun h' => good h' m /\ vw h' m = Some ((fun _ => Some x) <$> l) /\ same h h' (m_int m) /\ m_ext m = None) (m_ext m <> None).
  Proof.
    intros Hg Ev. pose proof Hg as (Hnb & _). unfold fill_.
    eapply wp_bind'; [apply (getPointer_wp _ _ _ Hg Ev)|]. intros p (-> & Hpp & He).
    destruct (good_some _ _ _ Hg Ev) as (b & blk & Hp & Hb & Hf & Hl & El). pose proof (good_len _ _ _ Hg Ev) as Hll. rewrite Hpp, Hp.
    set (k := (fun _ : option A => x) <$> l). assert (Hk : zlen k = m_nb m) by (unfold k; rewrite zlen_fmap; done).
    rewrite <- Hk. rewrite (write_loop h b blk k); [|done|done|lia|].
    2:{ intros i y h' Hy. unfold k in Hy. rewrite zlook_fmap in Hy. destruct (l @ i); simpl in Hy; [|done]. injection Hy as <-. done. }
    simpl. destruct (setcells h m b blk (over (b_cells blk) 0 k) (m_nb m) Hg Hp Hb) as (G1 & G2 & G3).
    - apply zlen_over; lia.
    - lia.
    - replace (Mem (m_nb m) _ _ _ _ _) with m in * by (destruct m; done). rewrite Hpp, Hp in G3. split; [done|]. split; [|split; [by apply G3|done]].
      unfold put. rewrite G2. f_equal. rewrite <- Hk, over_all by lia. unfold k. rewrite <- list_fmap_compose. done.
  Qed.
End Proofs.
