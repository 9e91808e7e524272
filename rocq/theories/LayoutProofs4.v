(** Proofs for C32. *)
From Verif Require Import Base DataArray ArrLib IndexSpec FillLib RenumSpec RenumProofs IndexProofs4 LayoutSpec LayoutModel LayoutProofs LayoutProofs2.
From Coq Require Import ZifyBool ZifyNat.

Section Rot.
  Context {A : Type}.
  Implicit Types (d : da A) (l pre X Y post u v w buf : list A).

  Lemma take_zlen l k n : n = zlen l -> take (Z.to_nat n) (l ++ k) = l.
  Proof. intros ->. unfold zlen. rewrite Nat2Z.id. apply take_app. Qed.
  Lemma drop_zlen l k n : n = zlen l -> drop (Z.to_nat n) (l ++ k) = k.
  Proof. intros ->. unfold zlen. rewrite Nat2Z.id. apply drop_app. Qed.
  Lemma save_ok u v w a b : a = zlen u -> b = zlen u + zlen v -> saveBlock (u ++ v ++ w) a b = Ok v.
  Proof.
    intros -> ->. unfold saveBlock. pose proof (zlen_nonneg u). pose proof (zlen_nonneg v). pose proof (zlen_nonneg w).
    replace (_ || _) with false by (rewrite !zlen_app; lia). cbn [ubif]. rewrite drop_zlen by done. rewrite take_zlen by lia. done.
  Qed.
  Lemma restore_ok u v w buf o : o = zlen u -> zlen buf = zlen v -> restoreBlock (u ++ v ++ w) o buf = Ok (u ++ buf ++ w).
  Proof.
    intros -> Hb. unfold restoreBlock. pose proof (zlen_nonneg u). pose proof (zlen_nonneg v). pose proof (zlen_nonneg w).
    replace (_ || _) with false by (rewrite !zlen_app; lia). cbn [ubif]. rewrite take_zlen by done. rewrite (app_assoc u v w), drop_zlen by (rewrite zlen_app; lia). done.
  Qed.
  Lemma move_save l a b o : moveIn false l a b o = let* k := saveBlock l a b in restoreBlock l o k.
  Proof.
    unfold moveIn, saveBlock, restoreBlock. destruct ((a <? 0) || (b <? a) || (zlen l <? b)) eqn:E; [done|]. cbn [orb ubif bind andb].
    assert (Hz : zlen (take (Z.to_nat (b - a)) (drop (Z.to_nat a) l)) = b - a) by (rewrite zlen_take, zlen_drop; lia). rewrite Hz. done.
  Qed.
  Lemma split_at l n : 0 <= n <= zlen l -> exists u v, l = u ++ v /\ zlen u = n.
  Proof. intros Hn. exists (take (Z.to_nat n) l), (drop (Z.to_nat n) l). split; [symmetry; apply take_drop|]. rewrite zlen_take. lia. Qed.
  Lemma rotate_ok pre X Y post o eff n c : 0 <= eff <= n -> 0 <= c -> o = zlen pre -> zlen X = eff * c -> zlen Y = (n - eff) * c ->
    rotateIn false (pre ++ X ++ Y ++ post) o eff n c = Ok (pre ++ Y ++ X ++ post).
  Proof.
    intros He Hc -> HX HY. unfold rotateIn. pose proof (zlen_nonneg X). pose proof (zlen_nonneg Y).
    destruct (split_at (X ++ Y) (zlen Y)) as (U & V & Huv & HU); [rewrite zlen_app; lia|].
    assert (HV : zlen V = zlen X) by (assert (zlen (X ++ Y) = zlen (U ++ V)) by congruence; rewrite !zlen_app in *; lia).
    destruct (eff <? n - eff).
    - rewrite (save_ok pre X (Y ++ post)) by lia. cbn [bind]. rewrite move_save.
      replace (pre ++ X ++ Y ++ post) with ((pre ++ X) ++ Y ++ post) at 1 by (rewrite <- app_assoc; done).
      rewrite (save_ok (pre ++ X) Y post) by (rewrite ?zlen_app; lia). cbn [bind].
      replace (pre ++ X ++ Y ++ post) with (pre ++ U ++ (V ++ post)) by (rewrite (app_assoc U V), <- Huv, <- app_assoc; done).
      rewrite (restore_ok pre U (V ++ post)) by lia. cbn [bind]. replace (pre ++ Y ++ V ++ post) with ((pre ++ Y) ++ V ++ post) by (rewrite <- app_assoc; done).
      rewrite (restore_ok (pre ++ Y) V post) by (rewrite ?zlen_app; lia). rewrite <- app_assoc. done.
    - replace (pre ++ X ++ Y ++ post) with ((pre ++ X) ++ Y ++ post) at 1 by (rewrite <- app_assoc; done).
      rewrite (save_ok (pre ++ X) Y post) by (rewrite ?zlen_app; lia). cbn [bind]. rewrite move_save.
      rewrite (save_ok pre X (Y ++ post)) by lia. cbn [bind].
      replace (pre ++ X ++ Y ++ post) with ((pre ++ U) ++ V ++ post) by (rewrite (app_assoc X Y), Huv, <- !app_assoc; done).
      rewrite (restore_ok (pre ++ U) V post) by (rewrite ?zlen_app; lia). cbn [bind]. rewrite <- app_assoc. rewrite (restore_ok pre U (X ++ post)) by lia. done.
  Qed.

  Lemma eff_ok s n : 1 <= n -> -2 ^ 63 < s -> exists e, EffectiveCircPerm s n = Ok e /\ 0 <= e <= n /\ e mod n = s mod n.
  Proof.
    intros Hn Hs. unfold EffectiveCircPerm. replace (n <=? 0) with false by lia. cbn [ifthrow]. destruct (Z.leb_spec 0 s).
    - exists (Z.rem s n). split; [done|]. rewrite Z.rem_mod_nonneg by lia. pose proof (Z.mod_pos_bound s n). split; [lia|]. apply Z.mod_mod. lia.
    - replace (s <? -9223372036854775807) with false by lia. cbn [ubif]. rewrite Z.rem_mod_nonneg by lia. exists (n - (- s) mod n). split; [done|].
      pose proof (Z.mod_pos_bound (-s) n). split; [lia|]. rewrite Zminus_mod_idemp_r. replace (n - - s) with (s + 1 * n) by lia. apply Z.mod_add. lia.
  Qed.
  Lemma eff_throw s n : n <= 0 -> EffectiveCircPerm s n = Throw.
  Proof. intros. unfold EffectiveCircPerm. replace (n <=? 0) with true by lia. done. Qed.

  (** The index read by a rotation of [e] among [n]. *)
  Lemma mod_small_add i e n : 0 <= i < n -> 0 <= e <= n -> (i + e) mod n = if i <? n - e then i + e else i - (n - e).
  Proof.
    intros Hi He. destruct (Z.ltb_spec i (n - e)).
    - apply Z.mod_small. lia.
    - replace (i + e) with ((i - (n - e)) + 1 * n) by lia. rewrite Z.mod_add by lia. apply Z.mod_small. lia.
  Qed.
  Lemma rot_look X Y e n c i j : 0 <= e <= n -> 0 <= i < n -> 0 <= j < c -> zlen X = e * c -> zlen Y = (n - e) * c ->
    (Y ++ X) @ (i * c + j) = (X ++ Y) @ (((i + e) mod n) * c + j).
  Proof.
    intros He Hi Hj HX HY. rewrite mod_small_add by done. destruct (Z.ltb_spec i (n - e)).
    - rewrite zlook_app_l by nia. rewrite zlook_app_r by nia. f_equal. lia.
    - rewrite zlook_app_r by nia. rewrite zlook_app_l by nia. f_equal. lia.
  Qed.

  Lemma circ_ok d s : da_wf d -> da_alloc d = true -> 1 <= da_nt d -> -2 ^ 63 < s ->
    exists r, circularPermutation false d s = Ok r /\ holds r (da_nt d) (da_nc d) (fun i j => da_vals d @ (((i + s) mod da_nt d) * da_nc d + j)).
  Proof.
    intros Hwf Ha Hn Hs. destruct (da_wf_len d Hwf) as (Hl & _ & Hc). unfold circularPermutation, checkAllocated. rewrite Ha. cbn [negb ifthrow].
    destruct (eff_ok s (da_nt d)) as (e & -> & He & Hem); [done..|]. cbn [bind].
    assert (Hmod : forall i, (i + s) mod da_nt d = (i + e) mod da_nt d) by (intros i; rewrite <- (Zplus_mod_idemp_r e), Hem, Zplus_mod_idemp_r; done).
    destruct (Z.eqb_spec e 0) as [->|He0].
    - exists (da_vals d). split; [done|]. split; [done|]. intros i j Hi Hj. rewrite Hmod, Z.add_0_r, Z.mod_small by done. done.
    - destruct (split_at (da_vals d) (e * da_nc d)) as (X & Y & HXY & HX); [nia|].
      assert (HY : zlen Y = (da_nt d - e) * da_nc d) by (rewrite HXY, zlen_app in Hl; lia).
      exists (Y ++ X). split.
      + pose proof (rotate_ok [] X Y [] 0 e (da_nt d) (da_nc d)) as H. rewrite !app_nil_r, !app_nil_l in H. rewrite HXY at 1. apply H; done.
      + split; [rewrite zlen_app; nia|]. intros i j Hi Hj. rewrite Hmod, HXY. apply rot_look; done.
  Qed.
  Lemma circ_throw st d s : da_wf d -> -2 ^ 63 < s -> (circularPermutation st d s = Throw <-> unallocated d \/ da_nt d = 0).
  Proof.
    intros Hwf Hs. destruct (da_wf_len d Hwf) as (Hl & Hn & Hc). unfold circularPermutation, checkAllocated. destruct (da_alloc d); cbn [negb ifthrow]; [|split; auto].
    destruct (decide (da_nt d = 0)) as [E|E].
    - rewrite eff_throw by lia. cbn [bind]. split; auto.
    - destruct (eff_ok s (da_nt d)) as (e & -> & He & Hem); [lia|done|]. cbn [bind]. split; [|intros [?|?]; done]. intros H. exfalso. destruct (e =? 0); [done|].
      revert H. unfold rotateIn, moveIn, saveBlock, restoreBlock, ubif. repeat (case_match; try done; cbn [bind]).
  Qed.
  Lemma holds_unique n c (f g : Z -> Z -> option A) l k : 0 <= c -> (forall i j, 0 <= i < n -> 0 <= j < c -> f i j = g i j) -> holds l n c f -> holds k n c g -> l = k.
  Proof. intros Hc Hfg [Hl Hf] [Hk Hg]. apply (flat_ext c n); [done..|]. intros i j Hi Hj. rewrite Hf, Hg by done. auto. Qed.
  Lemma holds_wf n c (f : Z -> Z -> option A) l : 0 <= n -> 1 <= c -> holds l n c f -> da_wf (DA true c l) /\ da_nt (DA true c l) = n.
  Proof. intros Hn Hc [Hl _]. split; [split; [simpl; lia|by exists n]|]. apply da_nt_mul; [lia|done|done]. Qed.
  Lemma nt_pos_nc d : da_wf d -> 1 <= da_nt d -> 1 <= da_nc d.
  Proof. intros Hwf Hn. destruct (da_wf_len d Hwf) as (_ & _ & Hc). unfold da_nt in Hn. destruct (Z.eqb_spec (da_nc d) 0); lia. Qed.
  Lemma circ_add d s t : da_wf d -> da_alloc d = true -> 1 <= da_nt d -> -2 ^ 63 < s -> -2 ^ 63 < t -> -2 ^ 63 < s + t ->
    exists r, circularPermutation false d s = Ok r /\ circularPermutation false (DA true (da_nc d) r) t = circularPermutation false d (s + t).
  Proof.
    intros Hwf Ha Hn Hs Ht Hst. pose proof (nt_pos_nc d Hwf Hn) as Hc. destruct (circ_ok d s) as (r & Hr & Hh); [done..|]. exists r. split; [done|].
    destruct (holds_wf (da_nt d) (da_nc d) _ r ltac:(lia) Hc Hh) as [Hwr Hnr]. destruct (circ_ok (DA true (da_nc d) r) t) as (r2 & -> & Hh2); [done|done|lia|done|].
    destruct (circ_ok d (s + t)) as (r3 & -> & Hh3); [done..|]. f_equal. rewrite Hnr in Hh2. cbn [da_nc da_vals] in Hh2.
    eapply (holds_unique (da_nt d) (da_nc d)); [lia| |exact Hh2|exact Hh3]. intros i j Hi Hj. destruct Hh as [_ Hv].
    rewrite Hv by (try done; apply Z.mod_pos_bound; lia). rewrite Zplus_mod_idemp_l. replace (i + t + s) with (i + (s + t)) by lia. done.
  Qed.
  Lemma circ_strict d s : da_wf d -> da_alloc d = true -> 1 <= da_nt d -> 0 <= s -> 2 * (s mod da_nt d) <= da_nt d ->
    circularPermutation true d s = circularPermutation false d s.
  Proof.
    intros Hwf Ha Hn Hs Hh. pose proof (nt_pos_nc d Hwf Hn) as Hc. destruct (da_wf_len d Hwf) as (Hl & _ & _). unfold circularPermutation, checkAllocated. rewrite Ha. cbn [negb ifthrow].
    unfold EffectiveCircPerm. replace (da_nt d <=? 0) with false by lia. cbn [ifthrow]. replace (0 <=? s) with true by lia. cbn [bind].
    rewrite Z.rem_mod_nonneg by lia. set (e := s mod da_nt d) in *. pose proof (Z.mod_pos_bound s (da_nt d) ltac:(lia)). fold e in H. destruct (Z.eqb_spec e 0); [done|].
    unfold rotateIn. destruct (Z.ltb_spec e (da_nt d - e)).
    - destruct (saveBlock _ _ _); [|done..]. cbn [bind]. f_equal. unfold moveIn. destruct (_ || _); [done|]. cbn [ubif andb]. replace (0 + e * da_nc d <=? 0) with false by nia. done.
    - destruct (saveBlock _ _ _); [|done..]. cbn [bind]. f_equal. unfold moveIn. destruct (_ || _); [done|]. cbn [ubif andb]. replace (0 + (da_nt d - e) * da_nc d <? 0 + e * da_nc d) with false by nia.
      rewrite andb_false_r. done.
  Qed.

  (** Loops over the tuples. *)
  Lemma tuple_loop (f : list A -> list A) (body : Z -> list A -> res (list A)) d : da_wf d ->
    (forall t, zlen t = da_nc d -> zlen (f t) = da_nc d) ->
    (forall pre t post i, 0 <= i < da_nt d -> zlen pre = i * da_nc d -> zlen t = da_nc d -> body i (pre ++ t ++ post) = Ok (pre ++ f t ++ post)) ->
    forZ 0 (da_nt d) body (da_vals d) = Ok (concat (f <$> tuples d)).
  Proof.
    intros Hwf Hf Hb. destruct (da_wf_len d Hwf) as (Hl & Hn & Hc). apply wp_ok_eq.
    apply (wp_forZ (fun i l => l = concat ((fun k => f (tuple d k)) <$> seqZ 0 i) ++ drop (Z.to_nat (i * da_nc d)) (da_vals d))); [done|done| |].
    - intros i l Hi ->. assert (Hd : drop (Z.to_nat (i * da_nc d)) (da_vals d) = tuple d i ++ drop (Z.to_nat ((i + 1) * da_nc d)) (da_vals d)).
      { unfold tuple. replace (Z.to_nat ((i + 1) * da_nc d)) with (Z.to_nat (i * da_nc d) + Z.to_nat (da_nc d))%nat by nia. rewrite <- drop_drop. rewrite take_drop. done. }
      rewrite Hd. rewrite Hb; [|done| |apply zlen_tuple; done].
      + simpl. rewrite seqZ_app_r by lia. rewrite fmap_app, concat_app. simpl. rewrite app_nil_r, <- app_assoc. done.
      + rewrite (zlen_concat_c _ _ (da_nc d)); [rewrite zlen_seqZ, Z.max_r by lia; done|]. intros k Hk. apply elem_of_seqZ in Hk. apply Hf. apply zlen_tuple; [done|lia].
    - intros l ->. rewrite drop_ge by (unfold zlen in Hl; lia). rewrite app_nil_r. unfold tuples. rewrite <- list_fmap_compose. done.
  Qed.
  Lemma tuples_look (f : list A -> list A) d i j : da_wf d -> (forall t, zlen t = da_nc d -> zlen (f t) = da_nc d) -> 0 <= i < da_nt d -> 0 <= j < da_nc d ->
    concat (f <$> tuples d) @ (i * da_nc d + j) = f (tuple d i) @ j.
  Proof.
    intros Hwf Hf Hi Hj. unfold tuples. rewrite <- list_fmap_compose. rewrite (zlook_concat _ _ (da_nc d) i i); [done| |apply zlook_seqZ; lia|done].
    intros k Hk. apply elem_of_seqZ in Hk. apply Hf, zlen_tuple; [done|lia].
  Qed.
  Lemma tuples_len (f : list A -> list A) d : da_wf d -> (forall t, zlen t = da_nc d -> zlen (f t) = da_nc d) -> zlen (concat (f <$> tuples d)) = da_nt d * da_nc d.
  Proof.
    intros Hwf Hf. destruct (da_wf_len d Hwf) as (Hl & Hn & Hc). unfold tuples. rewrite <- list_fmap_compose. rewrite (zlen_concat_c _ _ (da_nc d)).
    - rewrite zlen_seqZ, Z.max_r by done. done.
    - intros k Hk. apply elem_of_seqZ in Hk. apply Hf, zlen_tuple; [done|lia].
  Qed.

  Definition rotl (e : Z) (t : list A) : list A := drop (Z.to_nat e) t ++ take (Z.to_nat e) t.
  Lemma names_rot {B} (names : list B) e n : 1 <= n -> 0 <= e -> zlen names = n ->
    exists r, forZ 0 n (fun i sts => let* x := rd names (Z.rem (i + e) n) in Ok (sts ++ [x])) [] = Ok r /\ zlen r = n /\ forall i, 0 <= i < n -> r @ i = names @ ((i + e) mod n).
  Proof.
    intros Hn He Hl. apply wp_ok. apply (wp_forZ (fun k r => zlen r = k /\ forall i, 0 <= i < k -> r @ i = names @ ((i + e) mod n))).
    - lia.
    - split; [done|]. intros; lia.
    - intros k r Hk [Hr Hv]. apply wp_bind. rewrite Z.rem_mod_nonneg by lia. apply wp_rd; [rewrite Hl; apply Z.mod_pos_bound; lia|]. intros x Hx. cbn [wp]. rewrite zlen_app. change (zlen [x]) with 1.
      split; [lia|]. intros i Hi. destruct (decide (i = k)) as [->|].
      + rewrite zlook_app_r by lia. rewrite Hr, Z.sub_diag, Hx. done.
      + rewrite zlook_app_l by lia. apply Hv. lia.
    - done.
  Qed.
  Lemma circPT_ok {B} d (names : list B) s : da_wf d -> da_alloc d = true -> 1 <= da_nc d -> -2 ^ 63 < s -> zlen names = da_nc d ->
    exists r nm, circularPermutationPerTuple false d names s = Ok (r, nm) /\ holds r (da_nt d) (da_nc d) (fun i j => da_vals d @ (i * da_nc d + (j + s) mod da_nc d)) /\
      zlen nm = da_nc d /\ forall j, 0 <= j < da_nc d -> nm @ j = names @ ((j + s) mod da_nc d).
  Proof.
    intros Hwf Ha Hn Hs Hnm. destruct (da_wf_len d Hwf) as (Hl & Hnt & _). unfold circularPermutationPerTuple, checkAllocated. rewrite Ha. cbn [negb ifthrow].
    destruct (eff_ok s (da_nc d)) as (e & -> & He & Hem); [done..|]. cbn [bind].
    assert (Hmod : forall i, (i + s) mod da_nc d = (i + e) mod da_nc d) by (intros i; rewrite <- (Zplus_mod_idemp_r e), Hem, Zplus_mod_idemp_r; done).
    destruct (Z.eqb_spec e 0) as [->|He0].
    - exists (da_vals d), names. split; [done|]. split; [split; [done|]; intros i j Hi Hj; rewrite Hmod, Z.add_0_r, Z.mod_small by done; done|]. split; [done|].
      intros j Hj. rewrite Hmod, Z.add_0_r, Z.mod_small by done. done.
    - assert (Hf : forall t, zlen t = da_nc d -> zlen (rotl e t) = da_nc d) by (intros t Ht; unfold rotl; rewrite zlen_app, zlen_take, zlen_drop; lia).
      rewrite (tuple_loop (rotl e)); [|done|done|].
      + cbn [bind]. destruct (names_rot names e (da_nc d)) as (nm & -> & Hln & Hvn); [lia..|]. cbn [bind]. eexists _, nm. split; [done|]. split; [|split; [done|]; intros j Hj; rewrite Hmod; auto].
        split; [apply tuples_len; done|]. intros i j Hi Hj. rewrite tuples_look by done. rewrite Hmod. pose proof (zlen_tuple d i Hwf Hi) as Hlt.
        pose proof (rot_look (take (Z.to_nat e) (tuple d i)) (drop (Z.to_nat e) (tuple d i)) e (da_nc d) 1 j 0) as HR.
        rewrite take_drop, !Z.mul_1_r, !Z.add_0_r in HR. unfold rotl. rewrite HR; [|exact He|exact Hj|lia|rewrite zlen_take; lia|rewrite zlen_drop; lia].
        rewrite zlook_tuple; [done|done|done|]. apply Z.mod_pos_bound. lia.
      + intros pre t post i Hi Hp Ht. unfold rotl. rewrite <- (take_drop (Z.to_nat e) t) at 1. rewrite <- !app_assoc. rewrite rotate_ok; [done|done|lia|lia| |].
        * rewrite zlen_take. lia.
        * rewrite zlen_drop. lia.
  Qed.
  Lemma circPT_throw {B} st d (names : list B) s : da_wf d -> -2 ^ 63 < s -> (circularPermutationPerTuple st d names s = Throw <-> unallocated d \/ da_nc d = 0).
  Proof.
    intros Hwf Hs. destruct (da_wf_len d Hwf) as (Hl & Hn & Hc). unfold circularPermutationPerTuple, checkAllocated. destruct (da_alloc d); cbn [negb ifthrow]; [|split; auto].
    destruct (decide (da_nc d = 0)) as [E|E].
    - rewrite eff_throw by lia. cbn [bind]. split; auto.
    - destruct (eff_ok s (da_nc d)) as (e & -> & He & Hem); [lia|done|]. cbn [bind]. split; [|intros [?|?]; done]. intros H. exfalso. revert H. destruct (e =? 0); [done|].
      apply bind_not_throw; [|intros l; apply bind_not_throw; [|done]].
      + unfold forZ. apply foldM_not_throw. intros l' k. unfold rotateIn, moveIn, saveBlock, restoreBlock, ubif. repeat (case_match; try done; cbn [bind]).
      + unfold forZ. apply foldM_not_throw. intros l' k. apply bind_not_throw; [apply rd_not_throw|done].
  Qed.

  (** reversals *)
  Lemma revPT_wp {B} d (names : list B) : da_wf d -> zlen names = da_nc d -> wp (reversePerTuple d names)
    (fun '(r, nm) => da_alloc d = true /\ holds r (da_nt d) (da_nc d) (fun i j => da_vals d @ (i * da_nc d + (da_nc d - 1 - j))) /\ nm = rev names) (unallocated d).
  Proof.
    intros Hwf Hnm. destruct (da_wf_len d Hwf) as (Hl & Hn & Hc). unfold reversePerTuple, checkAllocated. apply wp_ifthrow; [destruct (da_alloc d); done|]. intros Ha.
    assert (Hat : da_alloc d = true) by (destruct (da_alloc d); done). destruct (Z.leb_spec (da_nc d) 1).
    - cbn [wp]. split; [done|]. split.
      + split; [done|]. intros i j Hi Hj. f_equal. lia.
      + destruct names as [|x [|y names]]; [done|done|]. unfold zlen in Hnm; simpl in Hnm. lia.
    - rewrite (tuple_loop (fun t => rev t)); [|done|intros t Ht; unfold zlen in *; rewrite rev_length; done|].
      + cbn [bind wp]. split; [done|]. split; [|done]. split; [apply tuples_len; [done|]; intros t Ht; unfold zlen in *; rewrite rev_length; done|].
        intros i j Hi Hj. rewrite tuples_look; [|done|intros t Ht; unfold zlen in *; rewrite rev_length; done|done|done]. pose proof (zlen_tuple d i Hwf Hi) as Hlt.
        rewrite zlook_rev. 2:{ lia. } rewrite Hlt. apply zlook_tuple; [done|done|lia].
      + intros pre t post i Hi Hp Ht. rewrite (save_ok pre t post) by lia. cbn [bind]. apply restore_ok; [done|]. unfold zlen. rewrite rev_length. done.
  Qed.
  Lemma revPT_ok {B} d (names : list B) : da_wf d -> zlen names = da_nc d -> da_alloc d = true ->
    exists r, reversePerTuple d names = Ok (r, rev names) /\ holds r (da_nt d) (da_nc d) (fun i j => da_vals d @ (i * da_nc d + (da_nc d - 1 - j))).
  Proof.
    intros Hwf Hnm Ha. pose proof (revPT_wp d names Hwf Hnm) as H. destruct (reversePerTuple d names) as [[r nm]| | |]; simpl in H; try done; [|congruence].
    destruct H as (_ & H & ->). eauto.
  Qed.
  Lemma revPT_invol {B} d (names : list B) : da_wf d -> zlen names = da_nc d -> da_alloc d = true ->
    exists r nm, reversePerTuple d names = Ok (r, nm) /\ reversePerTuple (DA true (da_nc d) r) nm = Ok (da_vals d, names).
  Proof.
    intros Hwf Hnm Ha. destruct (da_wf_len d Hwf) as (Hl & Hn & Hc). destruct (revPT_ok d names Hwf Hnm Ha) as (r & Hr & Hh). exists r, (rev names). split; [done|].
    destruct (decide (da_nc d = 0)) as [E|E].
    { unfold reversePerTuple, checkAllocated. cbn [da_alloc da_nc da_vals negb ifthrow]. rewrite E. simpl. destruct Hh as [Hlr _]. rewrite E in *.
      destruct names as [|x names]; [|unfold zlen in Hnm; simpl in Hnm; lia]. destruct (da_vals d); [|unfold zlen in Hl; simpl in Hl; lia]. destruct r; [done|]. unfold zlen in Hlr; simpl in Hlr; lia. }
    destruct (holds_wf (da_nt d) (da_nc d) _ r Hn ltac:(lia) Hh) as [Hwr Hnr]. destruct (revPT_ok (DA true (da_nc d) r) (rev names)) as (r2 & -> & Hh2); [done| |done|].
    { unfold zlen in *. rewrite rev_length. done. }
    rewrite rev_involutive. do 2 f_equal. rewrite Hnr in Hh2. cbn [da_nc da_vals] in Hh2.
    eapply (holds_unique (da_nt d) (da_nc d) _ (fun i j => da_vals d @ (i * da_nc d + j))); [lia| |exact Hh2|split; done]. intros i j Hi Hj. destruct Hh as [_ Hv]. rewrite Hv by lia. f_equal. lia.
  Qed.

  Lemma rev_wp d : da_wf d -> wp (reverse d)
    (fun r => (da_alloc d = true /\ 1 <= da_nc d) /\ holds r (da_nt d) (da_nc d) (fun i j => da_vals d @ ((da_nt d - 1 - i) * da_nc d + j))) (unallocated d \/ da_nc d < 1).
  Proof.
    intros Hwf. destruct (da_wf_len d Hwf) as (Hl & Hn & Hc). unfold reverse, checkAllocated. apply wp_ifthrow; [destruct (da_alloc d); auto; done|]. intros Ha.
    apply wp_ifthrow; [lia|]. intros Hc1. assert (Hat : da_alloc d = true /\ 1 <= da_nc d) by (destruct (da_alloc d); [split; [done|lia]|done]).
    destruct (Z.eqb_spec (da_nc d) 1) as [E|E].
    - cbn [wp]. split; [done|]. rewrite E in *. split; [unfold zlen in *; rewrite rev_length; done|]. intros i j Hi Hj. rewrite zlook_rev by lia. f_equal. lia.
    - assert (Hq : Z.quot (zlen (da_vals d)) (da_nc d) = da_nt d) by (rewrite Hl, Z.quot_mul by lia; done). rewrite Hq.
      set (n := da_nt d) in *. set (c := da_nc d) in *. set (vals := da_vals d) in *.
      assert (Hq2 : Z.quot n 2 = n / 2) by (apply Z.quot_div_nonneg; lia). rewrite Hq2. pose proof (Z.div_mod n 2 ltac:(lia)). pose proof (Z.mod_pos_bound n 2 ltac:(lia)).
      (* the tuples < I and >= n-I are exchanged, and the first J components of the tuples I and n-1-I *)
      set (done_ := fun (I J i j : Z) => (i <? I) || (n - 1 - I <? i) || (((i =? I) || (i =? n - 1 - I)) && (j <? J))).
      set (P := fun (I J : Z) (l : list A) => zlen l = zlen vals /\ forall i j, 0 <= i < n -> 0 <= j < c ->
        l @ (i * c + j) = if done_ I J i j then vals @ ((n - 1 - i) * c + j) else vals @ (i * c + j)).
      apply wp_bind. apply (wp_forZ (fun I '(l, pt, pt2) => P I 0 l /\ pt = I * c /\ pt2 = zlen vals - c - I * c)); [lia| | |].
      + split; [|lia]. split; [done|]. intros i j Hi Hj. unfold done_. replace (_ || _) with false by lia. done.
      + intros I [[l pt] pt2] HI (HP & -> & ->). apply wp_bind. apply (wp_forZ (fun J l => P I J l)); [lia|done| |].
        * intros J l' HJ [Hl' Hv]. assert (B1 : 0 <= I * c + J < zlen l') by (rewrite Hl', Hl; nia).
          assert (B2e : zlen vals - c - I * c + J = (n - 1 - I) * c + J) by (rewrite Hl; lia). rewrite B2e.
          assert (B2 : 0 <= (n - 1 - I) * c + J < zlen l') by (rewrite Hl', Hl; nia).
          apply wp_bind. apply wp_rd; [done|]. intros x Hx. apply wp_bind. apply wp_rd; [done|]. intros y Hy. apply wp_bind. apply wp_wr; [done|]. apply wp_wr; [rewrite zlen_zset; done|].
          rewrite Hv in Hx, Hy by lia. replace (done_ I J I J) with false in Hx by (unfold done_; lia). replace (done_ I J (n - 1 - I) J) with false in Hy by (unfold done_; lia).
          split; [rewrite !zlen_zset; done|]. intros i j Hi Hj. rewrite zlook_zset by (rewrite zlen_zset; done). rewrite zlook_zset by done. rewrite Hv by done.
          destruct (Z.eqb_spec (i * c + j) ((n - 1 - I) * c + J)) as [E1|E1].
          { destruct (flat_inj c i j (n - 1 - I) J) as [-> ->]; [done..|]. replace (done_ I (J + 1) _ _) with true by (unfold done_; lia). rewrite <- Hx. f_equal. lia. }
          destruct (Z.eqb_spec (i * c + j) (I * c + J)) as [E2|E2].
          { destruct (flat_inj c i j I J) as [-> ->]; [done..|]. replace (done_ I (J + 1) _ _) with true by (unfold done_; lia). rewrite <- Hy. done. }
          replace (done_ I (J + 1) i j) with (done_ I J i j); [done|]. assert (~ (i = n - 1 - I /\ j = J)) by (intros [-> ->]; done). assert (~ (i = I /\ j = J)) by (intros [-> ->]; done).
          clear - H1 H2. unfold done_. lia.
        * intros l' [Hl' Hv]. cbn [wp]. split; [|lia]. split; [done|]. intros i j Hi Hj. rewrite Hv by done. replace (done_ (I + 1) 0 i j) with (done_ I c i j); [done|].
          clear - Hj. unfold done_. lia.
      + intros [[l pt] pt2] ((Hl' & Hv) & _ & _). cbn [wp]. split; [done|]. split; [lia|]. intros i j Hi Hj. rewrite Hv by done. unfold done_. destruct (_ || _) eqn:Ed; [done|].
        assert (i = n - 1 - i) as <- by (clear - Ed H H0 Hi Hj; lia). done.
  Qed.
  Lemma rev_ok d : da_wf d -> da_alloc d = true -> 1 <= da_nc d ->
    exists r, reverse d = Ok r /\ holds r (da_nt d) (da_nc d) (fun i j => da_vals d @ ((da_nt d - 1 - i) * da_nc d + j)).
  Proof.
    intros Hwf Ha Hc. pose proof (rev_wp d Hwf) as H. destruct (reverse d) as [r| | |]; simpl in H; try done.
    - destruct H as (_ & H). eauto.
    - destruct H; [congruence|lia].
  Qed.
  Lemma rev_throw d : da_wf d -> (reverse d = Throw <-> unallocated d \/ da_nc d < 1).
  Proof.
    intros Hwf. pose proof (rev_wp d Hwf) as H. destruct (reverse d) as [r| | |]; simpl in H; try done. split; [done|]. destruct H as ((? & ?) & _). intros [?|?]; [congruence|lia].
  Qed.
  Lemma rev_invol d : da_wf d -> da_alloc d = true -> 1 <= da_nc d -> exists r, reverse d = Ok r /\ reverse (DA true (da_nc d) r) = Ok (da_vals d).
  Proof.
    intros Hwf Ha Hc. destruct (da_wf_len d Hwf) as (Hl & Hn & _). destruct (rev_ok d Hwf Ha Hc) as (r & Hr & Hh). exists r. split; [done|].
    destruct (holds_wf _ _ _ _ Hn Hc Hh) as [Hwr Hnr]. destruct (rev_ok (DA true (da_nc d) r)) as (r2 & -> & Hh2); [done..|]. f_equal. rewrite Hnr in Hh2. cbn [da_nc da_vals] in Hh2.
    eapply (holds_unique (da_nt d) (da_nc d) _ (fun i j => da_vals d @ (i * da_nc d + j))); [lia| |exact Hh2|split; done]. intros i j Hi Hj. destruct Hh as [_ Hv]. rewrite Hv by lia. f_equal. lia.
  Qed.
End Rot.
