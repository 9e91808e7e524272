(** Proofs for the buffer of an array. *)
From Verif Require Import Base DataArray ArrLib BufModel BufSpec.
From Coq Require Import ZifyBool ZifyNat.

Section Proofs.
  Context {A : Type}.
  Implicit Types (h : heap A) (m : mem).

  Definition cur m : option Z := if m_own m then m_int m else None.
  Definition freed_ok h (c : option Z) : Prop := forall b blk, h @ b = Some blk ->
    b_freed blk = if b_array blk then (if bool_decide (c = Some b) then 0 else 1) else 0.
  Definition vw h m : option (list (option A)) :=
    b ← constPointer m; blk ← h @ b; Some (take (Z.to_nat (m_nb m)) (b_cells blk)).
  Definition ptr_ok h m : Prop := match constPointer m with
    | None => m_nalloc m = 0 /\ m_own m = false
    | Some b => exists blk, h @ b = Some blk /\ m_nalloc m <= zlen (b_cells blk) /\ b_array blk = m_own m /\
        (m_own m = true -> m_int m = Some b /\ m_dealloc m = Some (b_kind blk)) end.
  Definition good h m : Prop := 0 <= m_nb m <= m_nalloc m /\ (m_int m = None \/ m_ext m = None) /\ freed_ok h (cur m) /\ ptr_ok h m.
  Definition same h h' (p : option Z) : Prop :=
    forall b blk, h @ b = Some blk -> b_array blk = false -> p <> Some b -> h' @ b = Some blk.

  Lemma same_refl h p : same h h p. Proof. intros b blk H _ _; done. Qed.
  Lemma same_weak h h' p : same h h' None -> same h h' p.
  Proof. intros H b blk Hb Ha _. apply H; done. Qed.
  Lemma same_trans h h' h'' p : same h h' p -> same h' h'' p -> same h h'' p.
  Proof. intros H1 H2 b blk Hb Ha Hp. apply H2; try done. apply H1; done. Qed.

  Lemma good_len h m l : good h m -> vw h m = Some l -> zlen l = m_nb m.
  Proof.
    intros (Hn & _ & _ & Hp) Hv. unfold vw, ptr_ok in *. destruct (constPointer m) as [b|]; [|done]. simpl in Hv.
    destruct Hp as (blk & Hb & Hl & _). rewrite Hb in Hv. simpl in Hv. injection Hv as <-. rewrite zlen_take. lia.
  Qed.
  Lemma good_none h m : good h m -> vw h m = None -> constPointer m = None /\ m_nb m = 0 /\ m_nalloc m = 0 /\ m_own m = false.
  Proof.
    intros (Hn & _ & _ & Hp) Hv. unfold vw, ptr_ok in *. destruct (constPointer m) as [b|]; simpl in Hv.
    - destruct Hp as (blk & Hb & _). rewrite Hb in Hv. done.
    - destruct Hp. split_and!; done || lia.
  Qed.
  Lemma good_some h m l : good h m -> vw h m = Some l -> exists b blk, constPointer m = Some b /\ h @ b = Some blk /\
     b_freed blk = 0 /\ m_nalloc m <= zlen (b_cells blk) /\ l = take (Z.to_nat (m_nb m)) (b_cells blk).
  Proof.
    intros (Hn & _ & Hf & Hp) Hv. unfold vw, ptr_ok in *. destruct (constPointer m) as [b|]; [|done]. simpl in Hv.
    destruct Hp as (blk & Hb & Hl & Ha & Ho). rewrite Hb in Hv. simpl in Hv. exists b, blk. split_and!; try done; [|congruence].
    rewrite (Hf _ _ Hb). unfold cur. destruct (m_own m); rewrite Ha; [|done]. destruct (Ho eq_refl) as [-> _].
    rewrite bool_decide_true; done.
  Qed.
  Lemma isAllocated_vw h m : good h m -> isAllocated m = bool_decide (is_Some (vw h m)).
  Proof.
    intros Hg. unfold isAllocated. destruct (vw h m) as [l|] eqn:E.
    - destruct (good_some _ _ _ Hg E) as (b & blk & -> & _). rewrite bool_decide_true; done.
    - destruct (good_none _ _ Hg E) as (-> & _). rewrite bool_decide_false; [done|]. intros [? ?]; done.
  Qed.

  (** releasing the current block *)
  Lemma free_cur h m : good h m ->
    wp (if m_own m then DestroyPointer h (constPointer m) (m_dealloc m) else Ok h)
       (fun h' => zlen h' = zlen h /\ freed_ok h' None /\ same h h' None) False.
  Proof.
    intros (Hn & Hx & Hf & Hp). destruct (m_own m) eqn:Eo; simpl.
    2:{ split; [done|]. split; [|apply same_refl]. unfold cur in Hf. rewrite Eo in Hf. done. }
    unfold ptr_ok in Hp. unfold cur in Hf. rewrite Eo in *. destruct (constPointer m) as [b|]; [|destruct Hp; done].
    destruct Hp as (blk & Hb & Hl & Ha & Ho). destruct (Ho eq_refl) as [Hi Hd]. rewrite Hd. simpl. unfold release, rd. rewrite Hb.
    cbn [bind]. pose proof (Hf _ _ Hb) as Hfb. rewrite Ha, Hi in Hfb. rewrite bool_decide_true in Hfb by done.
    rewrite Hfb. replace (dkind_eqb (b_kind blk) (b_kind blk)) with true by (destruct (b_kind blk); done). cbn [negb orb Z.eqb ubif].
    unfold wr. pose proof (zlook_Some_lt _ _ _ Hb) as Hlt.
    replace ((0 <=? b) && (b <? zlen h)) with true by lia. simpl. rewrite zlen_zset. split; [done|]. split.
    - intros b' blk'. rewrite zlook_zset by lia. intros Hb'. destruct (Z.eqb_spec b' b) as [E|E].
      + injection Hb' as <-. simpl. rewrite Ha. done.
      + rewrite (Hf _ _ Hb'), Hi. destruct (b_array blk'); [|done]. rewrite !bool_decide_false; congruence.
    - intros b' blk' Hb' Ha' _. rewrite zlook_zset by lia. destruct (Z.eqb_spec b' b) as [E|E]; [|done].
      subst b'. rewrite Hb in Hb'. injection Hb' as <-. congruence.
  Qed.

  Definition m0 : mem := Mem 0 0 false None None None.
  Lemma good_m0 h : freed_ok h None -> good h m0.
  Proof. intros Hf. unfold good, m0, cur, ptr_ok; simpl. split_and!; try done; lia || auto. Qed.
  Lemma destroy_wp h m : good h m ->
    wp (destroy h m) (fun '(h', m') => m' = m0 /\ zlen h' = zlen h /\ freed_ok h' None /\ same h h' None) False.
  Proof. intros Hg. unfold destroy. eapply wp_bind'; [apply free_cur, Hg|]. intros h' (Hl & Hf & Hs). simpl. done. Qed.

  (** a new block becomes the current one, nothing else being current *)
  Lemma freed_new h k cells : freed_ok h None -> freed_ok (h ++ [Blk k cells 0 true]) (Some (zlen h)).
  Proof.
    intros Hf b blk. rewrite zlook_app. destruct (Z.ltb_spec b (zlen h)) as [E|E].
    - intros Hb. rewrite (Hf _ _ Hb). destruct (b_array blk); [|done]. rewrite !bool_decide_false; try done. intros [=]; lia.
    - intros Hb. apply zlook_Some_lt in Hb as Hlt. change (zlen [Blk k cells 0 true]) with 1 in Hlt.
      replace (b - zlen h) with 0 in Hb by lia. simpl in Hb. injection Hb as <-. simpl. rewrite bool_decide_true; [done|]. f_equal; lia.
  Qed.
  Lemma same_snoc h (x : block A) p : same h (h ++ [x]) p.
  Proof. intros b blk Hb _ _. rewrite zlook_app. pose proof (zlook_Some_lt _ _ _ Hb). replace (b <? zlen h) with true by lia. done. Qed.
  Lemma look_last h (x : block A) : (h ++ [x]) @ (zlen h) = Some x.
  Proof. rewrite zlook_app. replace (zlen h <? zlen h) with false by lia. replace (zlen h - zlen h) with 0 by lia. done. Qed.

  Lemma good_new h k cells nb n : freed_ok h None -> 0 <= nb <= n -> n <= zlen cells ->
    good (h ++ [Blk k cells 0 true]) (Mem nb n true (Some (zlen h)) None (Some k)) /\
    vw (h ++ [Blk k cells 0 true]) (Mem nb n true (Some (zlen h)) None (Some k)) = Some (take (Z.to_nat nb) cells).
  Proof.
    intros Hf Hnb Hn. split.
    - unfold good, cur, ptr_ok; simpl. split; [lia|]. split; [by right|]. split; [by apply freed_new|].
      eexists. rewrite look_last. split_and!; simpl; done.
    - unfold vw; simpl. rewrite look_last. done.
  Qed.

  Lemma malloc_wp h m n : good h m -> 0 <= n ->
    wp (malloc_ h m n) (fun '(h', m') => good h' m' /\ vw h' m' = Some (unset n) /\ m_nb m' = n /\ m_ext m' = None /\ same h h' None /\ m_own m' = true) False.
  Proof.
    intros Hg Hn. unfold malloc_. eapply wp_bind'; [by apply destroy_wp|]. intros [h1 m1] (_ & Hl & Hf & Hs). simpl.
    destruct (good_new h1 CC (malloc A n) n n Hf) as [H1 H2]; [lia|unfold malloc; rewrite zlen_replicate; lia|].
    split; [done|]. split; [rewrite H2; f_equal; unfold malloc, unset; rewrite take_ge; [done|rewrite replicate_length; lia]|].
    split; [done|]. split; [done|]. split; [|done]. eapply same_trans; [done|]. apply same_snoc.
  Qed.

  Lemma useOwned_wp h m k cells n : good h m -> 0 <= n <= zlen cells ->
    wp (useArray (h ++ [Blk k cells 0 true]) m (zlen h) true k n)
       (fun '(h', m') => good h' m' /\ vw h' m' = Some (take (Z.to_nat n) cells) /\ m_nb m' = n /\ m_ext m' = None /\ same h h' None) False.
  Proof.
    intros Hg Hn. unfold useArray, destroy.
    assert (Hcomm : (if m_own m then DestroyPointer (h ++ [Blk k cells 0 true]) (constPointer m) (m_dealloc m) else Ok (h ++ [Blk k cells 0 true]))
      = let* h' := (if m_own m then DestroyPointer h (constPointer m) (m_dealloc m) else Ok h) in Ok (h' ++ [Blk k cells 0 true])).
    { destruct Hg as (_ & _ & _ & Hp). destruct (m_own m) eqn:Eo; [|done]. unfold ptr_ok in Hp. destruct (constPointer m) as [b|]; [|destruct Hp; congruence].
      destruct Hp as (blk & Hb & _ & _ & Ho). destruct (Ho Eo) as [_ Hd]. rewrite Hd. simpl. unfold release.
      pose proof (zlook_Some_lt _ _ _ Hb) as Hlt. pose proof (zlen_nonneg h).
      unfold rd. rewrite zlook_app. replace (b <? zlen h) with true by lia. rewrite Hb. cbn [bind].
      unfold ubif. destruct (_ || _); [done|]. unfold wr. rewrite zlen_app. change (zlen [Blk k cells 0 true]) with 1.
      replace ((0 <=? b) && (b <? zlen h + 1)) with true by lia. replace ((0 <=? b) && (b <? zlen h)) with true by lia.
      cbn [bind]. f_equal. unfold zset. rewrite insert_app_l; [done|]. unfold zlen in Hlt. lia. }
    rewrite Hcomm. pose proof (free_cur h m Hg) as Hw. destruct (if m_own m then DestroyPointer h (constPointer m) (m_dealloc m) else Ok h) as [h1| | |]; simpl in Hw; try done.
    destruct Hw as (Hl & Hf & Hs). simpl. rewrite <- Hl.
    destruct (good_new h1 k cells n n Hf) as [H1 H2]; [lia|lia|].
    split_and!; try done. eapply same_trans; [done|]. apply same_snoc.
  Qed.

  Lemma freed_client h c k cells : freed_ok h c -> freed_ok (h ++ [Blk k cells 0 false]) c.
  Proof.
    intros Hf b blk. rewrite zlook_app. destruct (Z.ltb_spec b (zlen h)) as [E|E]; [intros Hb; by apply Hf|].
    intros Hb. apply zlook_elem in Hb. apply elem_of_list_singleton in Hb as ->. done.
  Qed.
  Lemma client_good h m k cells : good h m -> good (h ++ [Blk k cells 0 false]) m /\ vw (h ++ [Blk k cells 0 false]) m = vw h m.
  Proof.
    intros (Hn & Hx & Hf & Hp).
    assert (Hlook : forall b blk, h @ b = Some blk -> (h ++ [Blk k cells 0 false]) @ b = Some blk).
    { intros b blk Hb. rewrite zlook_app. pose proof (zlook_Some_lt _ _ _ Hb). replace (b <? zlen h) with true by lia. done. }
    split.
    - split; [done|]. split; [done|]. split; [by apply freed_client|]. unfold ptr_ok in *. destruct (constPointer m) as [b|]; [|done].
      destruct Hp as (blk & Hb & Hr). exists blk. split; [by apply Hlook|done].
    - unfold vw, ptr_ok in *. destruct (constPointer m) as [b|]; [|done]. simpl. destruct Hp as (blk & Hb & Hr).
      rewrite (Hlook _ _ Hb), Hb. done.
  Qed.

  Lemma register_wp h m b blk k n (ro : bool) : good h m -> h @ b = Some blk -> b_array blk = false -> 0 <= n <= zlen (b_cells blk) ->
    wp (if ro then useArray h m b false k n else useRW h m b n)
       (fun '(h', m') => good h' m' /\ vw h' m' = Some (take (Z.to_nat n) (b_cells blk)) /\ m_nb m' = n /\
          (if ro then m_int m' = None else m_int m' = Some b /\ m_ext m' = None) /\ same h h' None) False.
  Proof.
    intros Hg Hb Ha Hn. destruct ro.
    - unfold useArray. eapply wp_bind'; [by apply destroy_wp|]. intros [h1 m1] (_ & Hl & Hf & Hs). simpl.
      assert (Hb1 : h1 @ b = Some blk) by (apply Hs; done).
      unfold good, cur, ptr_ok, vw; simpl. rewrite Hb1. split_and!; try done; try lia; [by left|].
      exists blk. split_and!; done || lia.
    - unfold useRW. eapply wp_bind'; [by apply destroy_wp|]. intros [h1 m1] (_ & Hl & Hf & Hs). simpl.
      assert (Hb1 : h1 @ b = Some blk) by (apply Hs; done).
      unfold good, cur, ptr_ok, vw; simpl. rewrite Hb1. split_and!; try done; try lia; [by right|].
      exists blk. split_and!; done || lia.
  Qed.

  Lemma copyPrefix_ok h m k n : good h m -> 0 <= k <= m_nb m -> k <= n ->
    copyPrefix h (constPointer m) k n = Ok (take (Z.to_nat k) (default [] (vw h m)) ++ malloc A (n - k)).
  Proof.
    intros Hg Hk Hn. unfold copyPrefix. replace ((n <? k) || (k <? 0)) with false by lia. cbn [ubif].
    destruct (Z.eqb_spec k 0) as [E|E]; [rewrite E; simpl; repeat f_equal; lia|].
    destruct (vw h m) as [l|] eqn:Ev.
    - destruct (good_some _ _ _ Hg Ev) as (b & blk & Hp & Hb & Hf & Hl & El). rewrite Hp. unfold rd. rewrite Hb. cbn [bind].
      rewrite Hf. destruct Hg as (Hnb & _). replace (zlen (b_cells blk) <? k) with false by lia. simpl. f_equal. f_equal. rewrite El.
      rewrite take_take. f_equal. lia.
    - destruct (good_none _ _ Hg Ev) as (_ & H0 & _). lia.
  Qed.

  (** reserve and reAlloc once the new cells are there *)
  Lemma move_wp h m cells nb n : good h m -> 0 <= nb <= n -> n <= zlen cells ->
    wp (let (h, b) := newBlock h cells in
        let* h := (if m_own m then DestroyPointer h (constPointer m) (m_dealloc m) else Ok h) in
        Ok (h, Mem nb n true (Some b) None (Some CC)))
       (fun '(h', m') => good h' m' /\ vw h' m' = Some (take (Z.to_nat nb) cells) /\ m_nb m' = nb /\ m_nalloc m' = n /\
          (m_ext m' = None /\ m_own m' = true) /\ same h h' None) False.
  Proof.
    intros Hg Hnb Hn. simpl.
    assert (Hcomm : (if m_own m then DestroyPointer (h ++ [Blk CC cells 0 true]) (constPointer m) (m_dealloc m) else Ok (h ++ [Blk CC cells 0 true]))
      = let* h' := (if m_own m then DestroyPointer h (constPointer m) (m_dealloc m) else Ok h) in Ok (h' ++ [Blk CC cells 0 true])).
    { destruct Hg as (_ & _ & _ & Hp). destruct (m_own m) eqn:Eo; [|done]. unfold ptr_ok in Hp. destruct (constPointer m) as [b|]; [|destruct Hp; congruence].
      destruct Hp as (blk & Hb & _ & _ & Ho). destruct (Ho Eo) as [_ Hd]. rewrite Hd. simpl. unfold release.
      pose proof (zlook_Some_lt _ _ _ Hb) as Hlt. pose proof (zlen_nonneg h).
      unfold rd. rewrite zlook_app. replace (b <? zlen h) with true by lia. rewrite Hb. cbn [bind].
      unfold ubif. destruct (_ || _); [done|]. unfold wr. rewrite zlen_app. change (zlen [Blk CC cells 0 true]) with 1.
      replace ((0 <=? b) && (b <? zlen h + 1)) with true by lia. replace ((0 <=? b) && (b <? zlen h)) with true by lia.
      cbn [bind]. f_equal. unfold zset. rewrite insert_app_l; [done|]. unfold zlen in Hlt. lia. }
    rewrite Hcomm. pose proof (free_cur h m Hg) as Hw. destruct (if m_own m then DestroyPointer h (constPointer m) (m_dealloc m) else Ok h) as [h1| | |]; simpl in Hw; try done.
    destruct Hw as (Hl & Hf & Hs). simpl. rewrite <- Hl.
    destruct (good_new h1 CC cells nb n Hf) as [H1 H2]; [lia|lia|].
    split_and!; try done. eapply same_trans; [done|]. apply same_snoc.
  Qed.

  Lemma reserve_wp h m n : good h m -> 0 <= n ->
    wp (reserve_ h m n)
       (fun '(h', m') => good h' m' /\ m_nb m' = Z.min (m_nb m) n /\ m_nalloc m' = n /\
          vw h' m' = (if (n =? 0) && negb (bool_decide (is_Some (vw h m))) then None else Some (take (Z.to_nat n) (default [] (vw h m)))) /\
          (if m_nalloc m =? n then m' = m /\ h' = h else m_ext m' = None /\ m_own m' = true) /\ same h h' None) False.
  Proof.
    intros Hg Hn. unfold reserve_. destruct (Z.eqb_spec (m_nalloc m) n) as [E|E].
    - simpl. pose proof Hg as (Hnb & _). split; [done|]. split; [lia|]. split; [done|]. split; [|split; [done|apply same_refl]].
      destruct (vw h m) as [l|] eqn:Ev.
      + rewrite (bool_decide_true (is_Some (Some l))) by done. rewrite andb_false_r. simpl. f_equal. rewrite take_ge; [done|].
        pose proof (good_len _ _ _ Hg Ev). unfold zlen in *. lia.
      + destruct (good_none _ _ Hg Ev) as (_ & _ & H0 & _). rewrite bool_decide_false by (intros [? ?]; done).
        replace (n =? 0) with true by lia. done.
    - pose proof Hg as (Hnb & _). rewrite copyPrefix_ok by (done || lia). cbn [bind].
      assert (Hle : zlen (default [] (vw h m)) = m_nb m).
      { destruct (vw h m) as [l|] eqn:Ev; [by apply (good_len h)|]. destruct (good_none _ _ Hg Ev) as (_ & H0 & _). rewrite H0. done. }
      eapply wp_mono; [apply (move_wp h m _ (Z.min (m_nb m) n) n Hg)| |done].
      + lia.
      + unfold malloc. rewrite zlen_app, zlen_take, zlen_replicate. lia.
      + intros [h' m'] (H1 & H2 & H3 & H4 & [H5 H5'] & H6). split_and!; try done. rewrite H2.
        rewrite take_app_le by (rewrite take_length; unfold zlen in *; lia).
        rewrite take_take. replace ((n =? 0) && _) with false.
        * f_equal. destruct (Z.min_spec (m_nb m) n) as [[? ->]|[? ->]]; [|f_equal; lia].
          rewrite !take_ge; try done; unfold zlen in *; lia.
        * symmetry. apply andb_false_iff. destruct (vw h m) as [l|] eqn:Ev; [right; by rewrite bool_decide_true|left].
          destruct (good_none _ _ Hg Ev) as (_ & _ & H0 & _). lia.
  Qed.

  Lemma reAlloc_wp h m n l : good h m -> vw h m = Some l -> 0 <= n ->
    wp (reAlloc_ h m n)
       (fun '(h', m') => good h' m' /\ m_nb m' = n /\ vw h' m' = Some (take (Z.to_nat n) l ++ unset (n - zlen l)) /\
          (if m_nb m =? n then m' = m /\ h' = h else m_ext m' = None /\ m_own m' = true) /\ same h h' None) False.
  Proof.
    intros Hg Ev Hn. pose proof (good_len _ _ _ Hg Ev) as Hl. unfold reAlloc_. destruct (Z.eqb_spec (m_nb m) n) as [E|E].
    - simpl. split_and!; try done; [|apply same_refl]. rewrite Ev. f_equal. rewrite take_ge by (unfold zlen in *; lia).
      replace (n - zlen l) with 0 by lia. unfold unset. simpl. rewrite app_nil_r. done.
    - pose proof Hg as (Hnb & _). rewrite copyPrefix_ok by (done || lia). cbn [bind]. rewrite Ev. simpl default.
      assert (Hcl : zlen (take (Z.to_nat (m_nb m `min` n)) l ++ malloc A (n - m_nb m `min` n)) = n).
      { unfold malloc. rewrite zlen_app, zlen_take, zlen_replicate. lia. }
      eapply wp_mono; [apply (move_wp h m _ n n Hg)| |done]; [lia|rewrite Hcl; lia|].
      intros [h' m'] (H1 & H2 & H3 & H4 & [H5 H5'] & H6). split_and!; try done. rewrite H2. f_equal.
      rewrite take_ge by (unfold zlen in *; lia). destruct (Z.min_spec (m_nb m) n) as [[? ->]|[? ->]].
      + rewrite !(take_ge l) by (unfold zlen in *; lia). unfold malloc, unset. rewrite Hl. done.
      + f_equal. unfold malloc, unset. replace (Z.to_nat (n - n)) with O by lia. replace (Z.to_nat (n - zlen l)) with O by lia. done.
  Qed.

  (** ** writing *)
  (** the current pointer is writable *)
  Definition writable m : Prop := m_ext m = None.
  Lemma getPointer_wp h m l : good h m -> vw h m = Some l ->
    wp (getPointer m) (fun p => p = m_int m /\ p = constPointer m /\ m_ext m = None) (m_ext m <> None).
  Proof.
    intros Hg Ev. destruct (good_some _ _ _ Hg Ev) as (b & blk & Hp & _). destruct Hg as (_ & Hx & _).
    unfold getPointer, constPointer in *. destruct (m_int m) as [i|]; simpl.
    - destruct Hx; done.
    - rewrite Hp. simpl. done.
  Qed.

  Lemma writeCell_wp h m l i x : good h m -> vw h m = Some l -> 0 <= i < m_nalloc m ->
    exists b blk, constPointer m = Some b /\ h @ b = Some blk /\ i < zlen (b_cells blk) /\
      writeCell h (constPointer m) i x = Ok (zset h b (Blk (b_kind blk) (zset (b_cells blk) i (Some x)) (b_freed blk) (b_array blk))).
  Proof.
    intros Hg Ev Hi. destruct (good_some _ _ _ Hg Ev) as (b & blk & Hp & Hb & Hf & Hl & El). exists b, blk. split; [done|]. split; [done|]. split; [lia|].
    rewrite Hp. simpl. unfold rd. rewrite Hb. cbn [bind]. rewrite Hf. cbn [negb Z.eqb ubif]. unfold wr at 1.
    replace ((0 <=? i) && (i <? zlen (b_cells blk))) with true by lia. cbn [bind]. unfold wr. pose proof (zlook_Some_lt _ _ _ Hb).
    replace ((0 <=? b) && (b <? zlen h)) with true by lia. done.
  Qed.

  (** changing the cells of the current block *)
  Lemma setcells h m b blk c nb : good h m -> constPointer m = Some b -> h @ b = Some blk -> zlen c = zlen (b_cells blk) -> 0 <= nb <= m_nalloc m ->
    let m' := Mem nb (m_nalloc m) (m_own m) (m_int m) (m_ext m) (m_dealloc m) in
    let h' := zset h b (Blk (b_kind blk) c (b_freed blk) (b_array blk)) in
    good h' m' /\ vw h' m' = Some (take (Z.to_nat nb) c) /\ (m_ext m = None -> same h h' (m_int m)).
  Proof.
    intros (Hnb & Hx & Hf & Hp) Ep Hb Hc Hn. pose proof (zlook_Some_lt _ _ _ Hb) as Hlt. simpl.
    assert (Hcur : zset h b (Blk (b_kind blk) c (b_freed blk) (b_array blk)) @ b = Some (Blk (b_kind blk) c (b_freed blk) (b_array blk))).
    { rewrite zlook_zset by lia. rewrite Z.eqb_refl. done. }
    split; [|split].
    - split; [done|]. split; [done|]. split.
      + intros b' blk'. rewrite zlook_zset by lia. destruct (Z.eqb_spec b' b) as [E|E]; [|intros Hb'; by apply (Hf b')].
        intros Hb'. injection Hb' as <-. subst b'. simpl. apply (Hf _ _ Hb).
      + unfold ptr_ok in *. change (constPointer (Mem nb _ _ (m_int m) (m_ext m) _)) with (constPointer m). rewrite Ep in *.
        destruct Hp as (blk0 & Hb0 & Hl & Ha & Ho). rewrite Hb in Hb0. injection Hb0 as <-.
        eexists. split; [exact Hcur|]. simpl. split_and!; try done. lia.
    - unfold vw. change (constPointer (Mem nb _ _ (m_int m) (m_ext m) _)) with (constPointer m). rewrite Ep. simpl.
      rewrite Hcur. done.
    - intros He b' blk' Hb' Ha Hne. rewrite zlook_zset by lia. destruct (Z.eqb_spec b' b) as [E|E]; [|done].
      subst b'. unfold constPointer in Ep. destruct (m_int m); congruence.
  Qed.

  Lemma same_int h h' p : same h h' p -> p = None -> same h h' None.
  Proof. intros H ->; done. Qed.
End Proofs.
