From Verif Require Import Base DataArray ArrLib StdModel SearchSpec StdProofs SearchModel RenumSpec RenumProofs.
From Coq Require Import ZifyBool ZifyNat.

(** * Loops collecting ids *)
Lemma collect_wp {A} (l : list A) n (op : A -> bool) (T : Prop) : n = zlen l ->
  wp (forZ 0 n (fun i ret => let* v := rd l i in Ok (if op v then ret ++ [i] else ret)) []) (ids_where (fun v => op v = true) l) T.
Proof.
  intros ->. eapply (wp_forZ (fun i ret => SS ret /\ forall k, k ∈ ret <-> k < i /\ exists v, l @ k = Some v /\ op v = true)).
  - apply zlen_nonneg.
  - split; [constructor|]. intros k. split; [set_solver|]. intros [Hk (v & Hv & _)]. apply zlook_Some_lt in Hv. lia.
  - intros i ret Hi [Hs Hr]. wstep. wstep; [done|]. intros v Hv. simpl. destruct (op v) eqn:E.
    + split.
      * apply SS_snoc; [done|]. intros y Hy. apply Hr in Hy. lia.
      * intros k. rewrite elem_of_app, elem_of_list_singleton, Hr. split.
        -- intros [[? ?]| ->]; [split; [lia|done]|]. split; [lia|]. eauto.
        -- intros [Hk He]. destruct (Z.eqb_spec k i); [by right|]. left. split; [lia|done].
    + split; [done|]. intros k. rewrite Hr. split; [intros [? ?]; split; [lia|done]|].
      intros [Hk (w & Hw & Hop)]. split; [|eauto]. destruct (Z.eqb_spec k i) as [->|]; [|lia]. congruence.
  - intros ret [Hs Hr]. split; [by apply increasing_SS|]. intros k. rewrite Hr. split; [tauto|].
    intros (v & Hv & Hop). split; [apply zlook_Some_lt in Hv; lia|]. eauto.
Qed.

Lemma ids_where_iff {A} (P Q : A -> Prop) l r : (forall v, P v <-> Q v) -> ids_where P l r -> ids_where Q l r.
Proof.
  intros H [H1 H2]. split; [done|]. intros i. rewrite H2. split; intros (v & Hv & Hp); exists v; (split; [done|]); by apply H.
Qed.

Lemma collect_ok {A} (l : list A) n (op : A -> bool) (P : A -> Prop) : n = zlen l -> (forall v, op v = true <-> P v) ->
  exists r, forZ 0 n (fun i ret => let* v := rd l i in Ok (if op v then ret ++ [i] else ret)) [] = Ok r /\ ids_where P l r.
Proof.
  intros Hn HP. destruct (wp_ok _ _ (collect_wp l n op False Hn)) as (r & Hr & Hw). exists r. split; [done|].
  exact (ids_where_iff _ _ _ _ HP Hw).
Qed.

Section One.
  Context (d : da Z) (Ha : da_alloc d = true) (Hc : da_nc d = 1).
  Local Lemma nt1 : da_nt d = zlen (da_vals d).
  Proof. by apply da_nt_one. Qed.
  Local Ltac start f := unfold f; unfold findIdsAdv, checkAllocated, checkOneComp; rewrite ?Ha, Hc; simpl.

  Lemma findIdsAdv_ok op (P : Z -> Prop) : (forall v, op v = true <-> P v) -> exists r, findIdsAdv op d = Ok r /\ ids_where P (da_vals d) r.
  Proof. intros HP. start @findIdsAdv. apply collect_ok; [apply nt1|done]. Qed.

  Lemma findIdsEqual_ok val : exists r, findIdsEqual val d = Ok r /\ ids_where (fun v => v = val) (da_vals d) r.
  Proof. start findIdsEqual. apply collect_ok; [apply nt1|]. intros; lia. Qed.
  Lemma findIdsNotEqual_ok val : exists r, findIdsNotEqual val d = Ok r /\ ids_where (fun v => v <> val) (da_vals d) r.
  Proof. start findIdsNotEqual. apply (collect_ok _ _ (fun v => negb (v =? val))); [apply nt1|]. intros; lia. Qed.
  Lemma findIdsEqualList_ok vals : exists r, findIdsEqualList vals d = Ok r /\ ids_where (fun v => v ∈ vals) (da_vals d) r.
  Proof. start findIdsEqualList. apply (collect_ok _ _ (fun v => smem v (set_of vals))); [apply nt1|]. intros; rewrite smem_spec. apply elem_of_set_of. Qed.
  Lemma findIdsNotEqualList_ok vals : exists r, findIdsNotEqualList vals d = Ok r /\ ids_where (fun v => v ∉ vals) (da_vals d) r.
  Proof.
    start findIdsNotEqualList. apply (collect_ok _ _ (fun v => negb (smem v (set_of vals)))); [apply nt1|]. intros.
    rewrite negb_true_iff, <- not_true_iff_false, smem_spec, elem_of_set_of. done.
  Qed.

  Lemma findIdFirst_gen (p : Z -> bool) (P : Z -> Prop) : (forall v, p v = true <-> P v) ->
    first_where P (da_vals d) (if negb (find_if p (da_vals d) =? da_nt d) then find_if p (da_vals d) else -1).
  Proof.
    intros HP. rewrite nt1. destruct (find_if_spec p (da_vals d)) as (H1 & H2 & H3).
    destruct (Z.eqb_spec (find_if p (da_vals d)) (zlen (da_vals d))) as [E|E]; simpl.
    - left. split; [done|]. intros k v Hk. rewrite <- HP. rewrite (H2 k v); [done| |done]. apply zlook_Some_lt in Hk. lia.
    - right. destruct H3 as (v & Hv & Hp); [lia|]. exists v. split; [done|]. split; [by apply HP|].
      intros k w Hk Hw. rewrite <- HP. rewrite (H2 k w); done.
  Qed.
  Lemma findIdFirstEqual_ok val : exists i, findIdFirstEqual val d = Ok i /\ first_where (fun v => v = val) (da_vals d) i.
  Proof. start findIdFirstEqual. eexists. split; [reflexivity|]. apply findIdFirst_gen. intros; lia. Qed.
  Lemma findIdFirstEqualAny_ok vals : exists i, findIdFirstEqualAny vals d = Ok i /\ first_where (fun v => v ∈ vals) (da_vals d) i.
  Proof.
    start findIdFirstEqualAny. eexists. split; [reflexivity|]. apply findIdFirst_gen. intros; rewrite smem_spec. apply elem_of_set_of.
  Qed.

  Lemma occ_snoc x l y : occ x (l ++ [y]) = occ x l + (if y =? x then 1 else 0).
  Proof.
    unfold occ. rewrite filter_app, zlen_app. f_equal. destruct (Z.eqb_spec y x) as [->|].
    - rewrite filter_cons_True by done. done.
    - rewrite filter_cons_False by done. done.
  Qed.

  Lemma countValue_ok val : countValue val d = Ok (occ val (da_vals d)).
  Proof.
    start countValue. rewrite nt1. apply wp_ok_eq.
    eapply (wp_forZ (fun i c => c = occ val (take (Z.to_nat i) (da_vals d)))).
    - apply zlen_nonneg.
    - done.
    - intros i c Hi ->. wstep. wstep; [done|]. intros v Hv. simpl. rewrite (take_succ _ _ _ Hv), occ_snoc.
      destruct (v =? val); lia.
    - intros c ->. rewrite take_ge by (unfold zlen; lia). done.
  Qed.

  Lemma findIdsEqual_count val r : findIdsEqual val d = Ok r -> zlen r = occ val (da_vals d).
  Proof.
    start findIdsEqual. rewrite nt1. intros H.
    assert (Hw : wp (forZ 0 (zlen (da_vals d)) (fun i ret => let* v := rd (da_vals d) i in Ok (if v =? val then ret ++ [i] else ret)) [])
        (fun r => zlen r = occ val (da_vals d)) False).
    { eapply (wp_forZ (fun i ret => zlen ret = occ val (take (Z.to_nat i) (da_vals d)))).
      - apply zlen_nonneg.
      - done.
      - intros i c Hi Hc'. wstep. wstep; [done|]. intros v Hv. simpl. rewrite (take_succ _ _ _ Hv), occ_snoc.
        destruct (v =? val); [rewrite zlen_app; change (zlen [i]) with 1|]; lia.
      - intros c ->. rewrite take_ge by (unfold zlen; lia). done. }
    rewrite H in Hw. done.
  Qed.

  Lemma changeValue_ok oldV newV : exists r l, changeValue oldV newV d = Ok (r, l) /\
    l = (fun v => if v =? oldV then newV else v) <$> da_vals d /\ r = if oldV =? newV then 0 else occ oldV (da_vals d).
  Proof.
    start changeValue. destruct (Z.eqb_spec oldV newV) as [->|Hne].
    { exists 0, (da_vals d). split; [done|]. split; [|done]. apply zlook_ext. intros i. rewrite zlook_fmap.
      destruct (da_vals d @ i); simpl; [|done]. destruct (Z.eqb_spec z newV); congruence. }
    assert (Hw : wp (forZ 0 (zlen (da_vals d)) (fun i '(ret, vals) =>
      let* v := rd vals i in if v =? oldV then let* vals := wr vals i newV in Ok (ret + 1, vals) else Ok (ret, vals)) (0, da_vals d))
      (fun '(r, l) => l = (fun v => if v =? oldV then newV else v) <$> da_vals d /\ r = occ oldV (da_vals d)) False).
    { eapply (wp_forZ (fun i '(r, l) => r = occ oldV (take (Z.to_nat i) (da_vals d)) /\ zlen l = zlen (da_vals d) /\
        forall k, l @ k = if k <? i then (fun v => if v =? oldV then newV else v) <$> (da_vals d @ k) else da_vals d @ k)).
      - apply zlen_nonneg.
      - split; [done|]. split; [done|]. intros k. destruct (Z.ltb_spec k 0); [|done]. rewrite zlook_neg by lia. done.
      - intros i [r l] Hi (Hr & Hl & Hk). wstep. wstep; [lia|]. intros v Hv. simpl.
        rewrite Hk in Hv. destruct (Z.ltb_spec i i); [lia|]. rewrite (take_succ _ _ _ Hv), occ_snoc.
        destruct (Z.eqb_spec v oldV) as [->|Hv'].
        + wstep. wstep; [lia|]. simpl. split; [lia|]. split; [by rewrite zlen_zset|]. intros k. rewrite zlook_zset by lia. rewrite Hk.
          destruct (Z.eqb_spec k i) as [->|].
          * destruct (Z.ltb_spec i (i + 1)); [|lia]. rewrite Hv. simpl. rewrite Z.eqb_refl. done.
          * destruct (Z.ltb_spec k i), (Z.ltb_spec k (i + 1)); try lia; done.
        + simpl. split; [lia|]. split; [done|]. intros k. rewrite Hk. destruct (Z.eqb_spec k i) as [->|].
          * destruct (Z.ltb_spec i i), (Z.ltb_spec i (i + 1)); try lia. rewrite Hv. simpl. destruct (Z.eqb_spec v oldV); [done|done].
          * destruct (Z.ltb_spec k i), (Z.ltb_spec k (i + 1)); try lia; done.
      - intros [r l] (Hr & Hl & Hk). split; [|rewrite take_ge in Hr by (unfold zlen; lia); done]. apply zlook_ext. intros k.
        rewrite Hk, zlook_fmap. destruct (Z.ltb_spec k (zlen (da_vals d))); [done|]. rewrite zlook_ge by lia. done. }
    destruct (wp_ok _ _ Hw) as ([r l] & Heq & H1 & H2). exists r, l. auto.
  Qed.

  Lemma checkAllIds_wp vmin vmax : wp (checkAllIdsInRange vmin vmax d)
    (fun b => (forall v, v ∈ da_vals d -> vmin <= v < vmax) /\ (b = true <-> da_vals d = seqZ 0 (zlen (da_vals d))))
    (exists v, v ∈ da_vals d /\ ~ vmin <= v < vmax).
  Proof.
    start checkAllIdsInRange. rewrite nt1.
    eapply (wp_forZ (fun i (b : bool) => (forall k v, k < i -> da_vals d @ k = Some v -> vmin <= v < vmax) /\
       (b = true <-> forall k v, k < i -> da_vals d @ k = Some v -> v = k))).
    - apply zlen_nonneg.
    - split; [intros k v Hk Hv; apply zlook_Some_lt in Hv; lia|]. split; [|done]. intros _ k v Hk Hv; apply zlook_Some_lt in Hv; lia.
    - intros i b Hi [H1 H2]. wstep. wstep; [done|]. intros v Hv. apply wp_if; intros E; simpl.
      + split.
        * intros k w Hk Hw. destruct (Z.eqb_spec k i) as [->|]; [|apply (H1 k); [lia|done]]. assert (v = w) by congruence. lia.
        * rewrite andb_true_iff, H2. split.
          -- intros [Ha' Hb'] k w Hk Hw. destruct (Z.eqb_spec k i) as [->|]; [|apply (Ha' k); [lia|done]]. assert (v = w) by congruence. lia.
          -- intros H. split; [intros k w Hk Hw; apply H; [lia|done]|]. specialize (H i v ltac:(lia) Hv). lia.
      + exists v. split; [eapply zlook_elem; eauto|]. lia.
    - intros b [H1 H2]. split.
      + intros v [k Hk]%elem_of_zlook. apply (H1 k); [|done]. apply zlook_Some_lt in Hk. lia.
      + rewrite H2. split.
        * intros H. apply zlook_ext_lt; [rewrite zlen_seqZ; pose proof (zlen_nonneg (da_vals d)); lia|]. intros i Hi.
          rewrite zlook_seqZ by done. destruct (zlook_lt _ _ Hi) as [v Hv]. rewrite Hv. f_equal. apply (H i v) in Hv; lia.
        * intros H k v Hk Hv. apply zlook_Some_lt in Hv as ?. rewrite H, zlook_seqZ in Hv by done. injection Hv; lia.
  Qed.

  Lemma iotaLoop_ok i l : iotaLoop i l = true <-> l = seqZ i (zlen l).
  Proof.
    revert i; induction l as [|x l IH]; intros i; simpl; [done|]. rewrite zlen_cons. pose proof (zlen_nonneg l). rewrite seqZ_cons by lia.
    replace (Z.pred (1 + zlen l)) with (zlen l) by lia. replace (Z.succ i) with (i + 1) by lia.
    destruct (Z.eqb_spec x i) as [->|Hne]; simpl.
    - rewrite IH. split; [congruence|]. injection 1; auto.
    - split; [done|]. injection 1; intros; lia.
  Qed.
  Lemma isIota_ok n : exists b, isIota n d = Ok b /\ (b = true <-> 0 <= n /\ da_vals d = seqZ 0 n).
  Proof.
    unfold isIota, checkAllocated. rewrite Ha, Hc. simpl. rewrite nt1. pose proof (zlen_nonneg (da_vals d)).
    destruct (Z.eqb_spec (zlen (da_vals d)) n) as [<-|Hne]; simpl; eexists; (split; [reflexivity|]).
    - rewrite iotaLoop_ok. naive_solver lia.
    - split; [done|]. intros [Hn E]. rewrite E, zlen_seqZ in Hne. lia.
  Qed.

  Lemma isUniform_ok val : exists b, isUniform val d = Ok b /\ (b = true <-> forall v, v ∈ da_vals d -> v = val).
  Proof.
    start isUniform. eexists; split; [reflexivity|]. rewrite forallb_forall. split; intros H v Hv.
    - specialize (H v (proj1 (elem_of_list_In _ _) Hv)). lia.
    - apply elem_of_list_In in Hv. specialize (H v Hv). lia.
  Qed.
  Lemma guess_wp : wp (checkUniformAndGuess d) (fun r => da_vals d <> [] /\ forall v, v ∈ da_vals d -> v = r)
     (da_vals d = [] \/ exists a b, a ∈ da_vals d /\ b ∈ da_vals d /\ a <> b).
  Proof.
    start checkUniformAndGuess. destruct (da_vals d) as [|r l] eqn:E; [by left|].
    destruct (forallb (fun v => v =? r) (r :: l)) eqn:F; simpl.
    - rewrite forallb_forall in F. split; [done|]. intros v Hv. specialize (F v (proj1 (elem_of_list_In _ _) Hv)). lia.
    - right. apply not_true_iff_false in F. rewrite forallb_forall in F.
      destruct (decide (Exists (fun v => v <> r) (r :: l))) as [H|H].
      + apply Exists_exists in H as (v & Hv & Hne). exists v, r. set_solver.
      + exfalso. apply F. intros v Hv%elem_of_list_In. destruct (Z.eqb_spec v r); [done|]. exfalso. apply H, Exists_exists. eauto.
  Qed.
  Lemma hasUnique_ok : exists b, hasUniqueValues d = Ok b /\ (b = true <-> NoDup (da_vals d)).
  Proof. start hasUniqueValues. eexists; split; [reflexivity|]. rewrite nt1, Z.eqb_eq. apply set_of_NoDup. Qed.

  Lemma monoLoop_ok (ok : Z -> Z -> bool) (R : Z -> Z -> Prop) : (forall x r, ok x r = true <-> R r x) -> Transitive R -> forall l ref,
    monoLoop ok ref l = true <-> (forall i j x y, i < j -> (ref :: l) @ i = Some x -> (ref :: l) @ j = Some y -> R x y).
  Proof.
    intros Hok Htr. induction l as [|z l IH]; intros ref; simpl.
    - split; [|done]. intros _ i j x y Hij Hi Hj. apply zlook_Some_lt in Hi, Hj. rewrite zlen_cons in *. change (zlen (@nil Z)) with 0 in *. lia.
    - destruct (ok z ref) eqn:E.
      + rewrite IH. apply Hok in E. split.
        * intros H i j x y Hij Hi Hj. rewrite zlook_cons in Hi, Hj. destruct (Z.eqb_spec j 0) as [->|].
          { destruct (Z.eqb_spec i 0); [lia|]. apply zlook_Some_lt in Hi. lia. }
          destruct (Z.eqb_spec i 0) as [->|].
          -- injection Hi as ->. destruct (Z.eqb_spec j 1) as [->|].
             ++ simpl in Hj. rewrite zlook_cons in Hj. simpl in Hj. injection Hj as ->. done.
             ++ transitivity z; [done|]. apply zlook_Some_lt in Hj as ?. apply (H 0 (j - 1)); [lia|done|done].
          -- apply (H (i - 1) (j - 1)); [lia|done|done].
        * intros H i j x y Hij Hi Hj. apply zlook_Some_lt in Hi as ?. apply zlook_Some_lt in Hj as ?.
          apply (H (i + 1) (j + 1)); [lia| |]; rewrite zlook_cons.
          -- destruct (Z.eqb_spec (i + 1) 0); [lia|]. replace (i + 1 - 1) with i by lia. done.
          -- destruct (Z.eqb_spec (j + 1) 0); [lia|]. replace (j + 1 - 1) with j by lia. done.
      + split; [done|]. intros H. apply not_true_iff_false in E. exfalso. apply E, Hok. apply (H 0 1); [lia|done|done].
  Qed.
  Lemma isMonotonic_ok (b : bool) : exists r, isMonotonic b d = Ok r /\
    (r = true <-> if b then nondecreasing (da_vals d) else nonincreasing (da_vals d)).
  Proof.
    start isMonotonic. destruct (da_vals d) as [|x l].
    - eexists; split; [reflexivity|]. split; [|done]. intros _. destruct b; intros i j x y _ Hi; rewrite zlook_nil in Hi; done.
    - eexists; split; [reflexivity|]. destruct b.
      + apply (monoLoop_ok _ Z.le); [intros; lia|]. intros ???; lia.
      + apply (monoLoop_ok _ (fun a b => b <= a)); [intros; lia|]. intros ???; lia.
  Qed.
  Lemma isStrictlyMonotonic_ok (b : bool) : exists r, isStrictlyMonotonic b d = Ok r /\
    (r = true <-> if b then increasing (da_vals d) else decreasing (da_vals d)).
  Proof.
    start isStrictlyMonotonic. destruct (da_vals d) as [|x l].
    - eexists; split; [reflexivity|]. split; [|done]. intros _. destruct b; intros i j x y _ Hi; rewrite zlook_nil in Hi; done.
    - eexists; split; [reflexivity|]. destruct b.
      + apply (monoLoop_ok _ Z.lt); [intros; lia|]. intros ???; lia.
      + apply (monoLoop_ok _ (fun a b => b < a)); [intros; lia|]. intros ???; lia.
  Qed.

  Lemma findIdSequence_ok vals : vals <> [] -> exists i, findIdSequence vals d = Ok i /\
    ((i = -1 /\ forall k, ~ occurs_at vals (da_vals d) k) \/ (occurs_at vals (da_vals d) i /\ forall k, k < i -> ~ occurs_at vals (da_vals d) k)).
  Proof.
    intros Hne. start findIdSequence. destruct (search_spec (da_vals d) vals) as (H1 & H2 & H3 & H4).
    eexists; split; [reflexivity|]. destruct (Z.eqb_spec (search (da_vals d) vals) (zlen (da_vals d))) as [E|E]; simpl.
    - left. split; [done|]. intros k. apply H4; done.
    - right. split; [apply H3; lia|]. intros k Hk. destruct (decide (0 <= k)); [apply H2; lia|]. intros [? _]. lia.
  Qed.
End One.

(** A single element of a multi-tuple search *)
Lemma occurs_tuple d (tupl : list Z) i : da_wf d -> da_nc d = zlen tupl -> 0 <= i < da_nt d ->
  occurs_at tupl (da_vals d) (i * da_nc d) <-> tuple d i = tupl.
Proof.
  intros Hwf Hc Hi. destruct (da_wf_len d Hwf) as (Hl & Hn & Hnc). split.
  - intros (_ & _ & H). apply zlook_ext. intros j. rewrite tuple_look by lia. unfold ij.
    destruct ((0 <=? i) && (0 <=? j) && (j <? da_nc d)) eqn:E; [apply H; lia|].
    symmetry. apply zlook_None. lia.
  - intros H. split; [nia|]. split; [nia|]. intros k Hk. rewrite <- H at 1. rewrite tuple_look by lia.
    rewrite ij_flat by lia. done.
Qed.

Lemma occurs_drop {A} (pat l : list A) a k : 0 <= a <= zlen l -> 0 <= k -> occurs_at pat (drop (Z.to_nat a) l) k <-> occurs_at pat l (a + k).
Proof.
  intros Ha Hk. unfold occurs_at. rewrite zlen_drop. split; intros (H1 & H2 & H3); (split; [lia|]; split; [lia|]); intros j Hj;
    specialize (H3 j Hj); rewrite zlook_drop in * by lia; replace (Z.of_nat (Z.to_nat a) + (k + j)) with (a + k + j) in * by lia; done.
Qed.

Section Tup.
  Context (d : da Z) (tupl : list Z) (Ha : da_alloc d = true) (Hwf : da_wf d) (Hc : da_nc d = zlen tupl) (Hpos : 0 < zlen tupl).
  Local Notation n := (zlen (da_vals d)).
  Local Lemma hd : n = da_nt d * zlen tupl /\ 0 <= da_nt d.
  Proof. destruct (da_wf_len d Hwf) as (H1 & H2 & H3).  rewrite <- Hc. done. Qed.
  Local Lemma tne : tupl <> [].
  Proof. intros ->. unfold zlen in Hpos; simpl in Hpos. lia. Qed.

  Local Lemma next_occ w : 0 <= w <= n -> let w' := w + search (drop (Z.to_nat w) (da_vals d)) tupl in
    w <= w' <= n /\ (forall k, w <= k < w' -> ~ occurs_at tupl (da_vals d) k) /\ (w' < n -> occurs_at tupl (da_vals d) w').
  Proof.
    intros Hw. cbv zeta. destruct (search_spec (drop (Z.to_nat w) (da_vals d)) tupl) as (H1 & H2 & H3 & H4).
    rewrite zlen_drop in *.
    split; [lia|]. split.
    - intros k Hk. replace k with (w + (k - w)) by lia. rewrite <- occurs_drop by lia. apply H2. lia.
    - intros Hlt. rewrite <- occurs_drop by lia. apply H3. lia.
  Qed.
  Local Lemma occ_lt k : occurs_at tupl (da_vals d) k -> 0 <= k < n.
  Proof. intros (H1 & H2 & _). lia. Qed.
  Local Lemma occ_tuple k : occurs_at tupl (da_vals d) k -> Z.rem k (zlen tupl) = 0 ->
     0 <= Z.quot k (zlen tupl) < da_nt d /\ k = Z.quot k (zlen tupl) * zlen tupl /\ tuple d (Z.quot k (zlen tupl)) = tupl.
  Proof.
    intros Ho Hr. pose proof (occ_lt k Ho). destruct hd as [Hn Hn0].
    pose proof (Z.quot_rem k (zlen tupl) ltac:(lia)) as Hq. rewrite Hr, Z.add_0_r in Hq.
    assert (0 <= Z.quot k (zlen tupl)) by (apply Z.quot_pos; lia).
    assert (Z.quot k (zlen tupl) < da_nt d) by nia. split; [done|]. split; [lia|].
    apply occurs_tuple; [done|done|lia|]. rewrite Hc. replace (Z.quot k (zlen tupl) * zlen tupl) with k by lia. done.
  Qed.

  Lemma findIdsEqualTuple_ok : exists r, findIdsEqualTuple tupl d = Ok r /\ ids_where (fun t => t = tupl) (tuples d) r.
  Proof.
    unfold findIdsEqualTuple, checkAllocated, ifthrow. rewrite Ha, Hc, Z.eqb_refl. cbn [negb].
    replace (zlen tupl =? 0) with false by lia. cbv beta zeta iota. destruct hd as [Hn Hn0]. apply wp_ok.
    apply wp_bind. eapply (wp_whileM (fun '(w, r) => 0 <= w <= n /\ SS r /\
      forall k, k ∈ r <-> 0 <= k < da_nt d /\ k * zlen tupl < w /\ tuple d k = tupl) (fun '(w, _) => Z.to_nat (n - w))).
    - split; [lia|]. split; [constructor|]. intros k. split; [set_solver|]. intros (H1 & H2 & H3). nia.
    - unfold zlen. lia.
    - intros [w r] (Hw & Hs & Hr). simpl. destruct (Z.eqb_spec w n) as [->|Hwn]; simpl.
      + split; [by apply increasing_SS|]. intros k. rewrite Hr. unfold tuples. split.
        * intros (Hk & Hlt & Ht). exists tupl. split; [|done]. rewrite zlook_fmap, zlook_seqZ by done. simpl. f_equal. done.
        * intros (v & Hv & ->). pose proof (zlook_Some_lt _ _ _ Hv) as Hk. rewrite zlen_fmap, zlen_seqZ in Hk.
          rewrite zlook_fmap, zlook_seqZ in Hv by lia. injection Hv as Hv. simpl in Hv. split; [lia|]. split; [nia|done].
      + destruct (next_occ w Hw) as (H1 & H2 & H3). cbv zeta in *.
        set (w' := w + search (drop (Z.to_nat w) (da_vals d)) tupl) in *.
        destruct (Z.eqb_spec w' n) as [E|E]; simpl.
        * split; [|lia]. split; [lia|]. split; [done|]. intros k. rewrite Hr. split; [intros (?&?&?); split; [done|]; split; [lia|done]|].
          intros (Hk & Hlt & Ht). split; [done|]. split; [|done].
          destruct (Z.lt_ge_cases (k * zlen tupl) w); [done|]. exfalso. apply (H2 (k * zlen tupl)); [lia|].
          rewrite <- Hc. apply occurs_tuple; done.
        * assert (Ho : occurs_at tupl (da_vals d) w') by (apply H3; lia).
          assert (Hold : forall k, 0 <= k < da_nt d -> tuple d k = tupl -> k * zlen tupl < w' -> k * zlen tupl < w).
          { intros k Hk Ht Hlt. destruct (Z.lt_ge_cases (k * zlen tupl) w); [done|]. exfalso.
            apply (H2 (k * zlen tupl)); [lia|]. rewrite <- Hc. apply occurs_tuple; done. }
          split; [|lia]. split; [lia|]. destruct (Z.eqb_spec (Z.rem w' (zlen tupl)) 0) as [Hrem|Hrem].
          -- destruct (occ_tuple w' Ho Hrem) as (Hq & Hq' & Ht). split.
             ++ apply SS_snoc; [done|]. intros y Hy. apply Hr in Hy as (? & ? & ?). nia.
             ++ intros k. rewrite elem_of_app, elem_of_list_singleton, Hr. split.
                ** intros [(? & ? & ?)| ->]; (split; [done|]; split; [lia|done]).
                ** intros (Hk & Hlt & Htk). destruct (Z.eqb_spec k (Z.quot w' (zlen tupl))) as [->|Hkne]; [by right|]. left.
                   split; [done|]. split; [|done]. apply Hold; [done|done|]. nia.
          -- split; [done|]. intros k. rewrite Hr. split; [intros (?&?&?); split; [done|]; split; [lia|done]|].
             intros (Hk & Hlt & Htk). split; [done|]. split; [|done]. apply Hold; [done|done|].
             destruct (Z.eqb_spec (k * zlen tupl) w') as [Ek|]; [|lia]. exfalso. apply Hrem. rewrite <- Ek. apply Z.rem_mul. lia.
  Qed.

  Lemma findIdFirstEqualTuple_ok : exists i, findIdFirstEqualTuple tupl d = Ok i /\ first_where (fun t => t = tupl) (tuples d) i.
  Proof.
    unfold findIdFirstEqualTuple, checkAllocated, ifthrow. rewrite Ha, Hc, Z.eqb_refl. cbn [negb].
    replace (zlen tupl =? 0) with false by lia. cbv beta zeta iota. destruct hd as [Hn Hn0]. apply wp_ok.
    assert (Htup : forall k v, tuples d @ k = Some v <-> 0 <= k < da_nt d /\ v = tuple d k).
    { intros k v. unfold tuples. rewrite zlook_fmap. split.
      - intros Hv. destruct (seqZ 0 (da_nt d) @ k) eqn:E; [|done]. apply zlook_Some_lt in E as Hk. rewrite zlen_seqZ in Hk.
        rewrite zlook_seqZ in E by lia. injection E as <-. injection Hv as <-. split; [lia|done].
      - intros [Hk ->]. rewrite zlook_seqZ by done. done. }
    apply wp_bind. eapply (wp_whileM (fun '(w, r) => 0 <= w <= n /\
      (forall k, 0 <= k < da_nt d -> k * zlen tupl < w -> tuple d k <> tupl) /\
      match r with None => True | Some i => w = i * zlen tupl /\ 0 <= i < da_nt d /\ tuple d i = tupl end)
      (fun '(w, r) => match r with None => Z.to_nat (n - w) | Some _ => O end)).
    - split; [lia|]. split; [|done]. intros k Hk. nia.
    - unfold zlen. lia.
    - intros [w [i|]] (Hw & Hn' & Hr); simpl.
      + right. destruct Hr as (-> & Hi & Ht). exists tupl. split; [by apply Htup|]. split; [done|].
        intros k v Hk Hv%Htup. destruct Hv as [Hk' ->]. apply Hn'; [done|]. nia.
      + destruct (Z.eqb_spec w n) as [->|Hwn]; simpl.
        { left. split; [done|]. intros k v Hv%Htup. destruct Hv as [Hk ->]. apply Hn'; [done|]. nia. }
        destruct (next_occ w Hw) as (H1 & H2 & H3). cbv zeta in *.
        set (w' := w + search (drop (Z.to_nat w) (da_vals d)) tupl) in *.
        assert (Hold : forall k, 0 <= k < da_nt d -> k * zlen tupl < w' -> tuple d k <> tupl).
        { intros k Hk Hlt Ht. destruct (Z.lt_ge_cases (k * zlen tupl) w); [by apply (Hn' k)|].
          apply (H2 (k * zlen tupl)); [lia|]. rewrite <- Hc. apply occurs_tuple; done. }
        destruct (Z.eqb_spec w' n) as [E|E]; simpl.
        * split; [|lia]. split; [lia|]. done.
        * assert (Ho : occurs_at tupl (da_vals d) w') by (apply H3; lia).
          destruct (Z.eqb_spec (Z.rem w' (zlen tupl)) 0) as [Hrem|Hrem]; simpl.
          -- destruct (occ_tuple w' Ho Hrem) as (Hq & Hq' & Ht). split; [|lia]. split; [lia|]. done.
          -- split; [|lia]. split; [lia|]. split; [|done]. intros k Hk Hlt.
             destruct (Z.eqb_spec (k * zlen tupl) w') as [Ek|]; [|apply Hold; [done|lia]]. exfalso. apply Hrem. rewrite <- Ek. apply Z.rem_mul. lia.
  Qed.
End Tup.

(** * Rejection of arrays with a wrong shape *)
Lemma bad_shape_throw {A B} (d : da A) (k : res B) : bad_shape d -> checkAllocated d (checkOneComp d k) = Throw.
Proof.
  unfold checkAllocated, checkOneComp, ifthrow. intros [->|H]; [done|]. destruct (da_alloc d); [|done]. simpl.
  destruct (Z.eqb_spec (da_nc d) 1); [done|]. done.
Qed.
