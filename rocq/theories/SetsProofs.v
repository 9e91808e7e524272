From stdpp Require Import gmap.
From Verif Require Import Base DataArray ArrLib StdModel SearchSpec StdProofs SearchModel RenumModel RenumSpec RenumProofs RenumProofs2 SearchProofs SetsSpec SetsModel.
From Coq Require Import ZifyBool ZifyNat.

Lemma enum_intro P r : SS r -> (forall x, x ∈ r <-> P x) -> enumerates P r.
Proof. intros H1 H2. split; [by apply increasing_SS|done]. Qed.
Lemma enumerates_iff (P Q : Z -> Prop) r : (forall x, P x <-> Q x) -> enumerates P r -> enumerates Q r.
Proof. intros H [H1 H2]. split; [done|]. intros x. rewrite H2. apply H. Qed.

(** * Complement *)
Definition nfalse (l : list bool) : Z := zlen (filter (fun b => b = false) l).
Lemma nfalse_app a b : nfalse (a ++ b) = nfalse a + nfalse b.
Proof. unfold nfalse. rewrite filter_app, zlen_app. done. Qed.
Lemma nfalse_nonneg l : 0 <= nfalse l.
Proof. apply zlen_nonneg. Qed.

Lemma complement_wp d n : da_alloc d = true -> da_nc d = 1 ->
  wp (buildComplement n d)
     (fun r => 0 <= n /\ ~ out_of_range n (da_vals d) /\ exists k, r = Some <$> k /\ enumerates (fun x => 0 <= x < n /\ x ∉ da_vals d) k)
     (n < 0 \/ out_of_range n (da_vals d)).
Proof.
  intros Ha Hc. unfold buildComplement, checkAllocated, checkOneComp. rewrite Ha, Hc. simpl. wstep; [intros; left; lia|]. intros Hn.
  wstep. apply (wp_foldM _ (fun pre tmp => zlen tmp = n /\ (forall v, v ∈ pre -> 0 <= v < n) /\
     forall k, 0 <= k < n -> exists b : bool, tmp @ k = Some b /\ (b = true <-> k ∈ pre))).
  - split; [rewrite zlen_replicate; lia|]. split; [set_solver|]. intros k Hk. exists false. split; [apply zlook_replicate; lia|].
    split; [done|set_solver].
  - intros pre v post tmp Hl (Hlen & Hin & Hk). apply wp_if; intros E; simpl.
    + wstep; [lia|]. split; [by rewrite zlen_zset|]. split; [intros w [?| ->%elem_of_list_singleton]%elem_of_app; [auto|lia]|].
      intros k Hkn. rewrite zlook_zset by lia. destruct (Z.eqb_spec k v) as [->|Hne].
      * exists true. split; [done|]. split; [|done]. set_solver.
      * destruct (Hk k Hkn) as (b & Hb & Hb'). exists b. split; [done|]. rewrite Hb'. set_solver.
    + right. exists v. split; [rewrite Hl; set_solver|]. lia.
  - intros tmp (Hlen & Hin & Hk). fold (nfalse tmp). wstep. apply wp_alloc; [apply nfalse_nonneg|lia|]. rewrite Z.mul_1_l.
    wstep. eapply (wp_forZ (fun i '(j, ret) => exists k, j = zlen k /\ j = nfalse (take (Z.to_nat i) tmp) /\
       ret = (Some <$> k) ++ malloc Z (nfalse tmp - j) /\ SS k /\ forall x, x ∈ k <-> 0 <= x < i /\ x ∉ da_vals d)).
    + lia.
    + exists []. split; [done|]. split; [done|]. split; [rewrite Z.sub_0_r; done|]. split; [constructor|]. intros x. split; [set_solver|lia].
    + intros i [j ret] Hi (k & Hj & Hj' & -> & Hs & Hx). wstep. wstep; [lia|]. intros b Hb.
      destruct (Hk i Hi) as (b' & Hb' & Hiff). assert (b' = b) by congruence. subst b'.
      pose proof (take_drop (Z.to_nat i) tmp) as Htd. assert (Hd : drop (Z.to_nat i) tmp = b :: drop (Z.to_nat (i + 1)) tmp).
      { replace (Z.to_nat (i + 1)) with (Datatypes.S (Z.to_nat i)) by lia. apply drop_S. rewrite zlook_to_nat in Hb by lia. done. }
      assert (Hnf : nfalse tmp = nfalse (take (Z.to_nat i) tmp) + nfalse [b] + nfalse (drop (Z.to_nat (i + 1)) tmp)).
      { rewrite <- Htd at 1. rewrite Hd. change (b :: drop (Z.to_nat (i + 1)) tmp) with ([b] ++ drop (Z.to_nat (i + 1)) tmp). rewrite !nfalse_app. lia. }
      pose proof (nfalse_nonneg (drop (Z.to_nat (i + 1)) tmp)).
      destruct b; simpl.
      * exists k. split; [done|]. rewrite (take_succ _ _ _ Hb), nfalse_app. change (nfalse [true]) with 0. split; [lia|]. split; [done|].
        split; [done|]. intros x. rewrite Hx. split; [intros [? ?]; split; [lia|done]|]. intros [? ?]. split; [|done].
        destruct (Z.eqb_spec x i) as [->|]; [|lia]. tauto.
      * change (nfalse [false]) with 1 in Hnf. wstep. apply wp_fill; [lia|done|]. simpl. exists (k ++ [i]).
        rewrite zlen_app. change (zlen [i]) with 1. split; [lia|]. rewrite (take_succ _ _ _ Hb), nfalse_app. change (nfalse [false]) with 1.
        split; [lia|]. split; [f_equal; f_equal; lia|]. split; [apply SS_snoc; [done|]; intros y Hy; apply Hx in Hy; lia|].
        intros x. rewrite elem_of_app, elem_of_list_singleton, Hx. split.
        -- intros [[? ?]| ->]; [split; [lia|done]|]. split; [lia|]. intros Hin'. apply Hiff in Hin'. done.
        -- intros [? ?]. destruct (Z.eqb_spec x i); [by right|left]. split; [lia|done].
    + intros [j ret] (k & Hj & Hj' & -> & Hs & Hx). rewrite take_ge in Hj' by (unfold zlen in Hlen; lia). simpl.
      split; [lia|]. split; [intros (v & Hv & Hv'); apply Hv', Hin, Hv|]. exists k. split.
      * replace (nfalse tmp - j) with 0 by lia. rewrite malloc_0, app_nil_r. done.
      * apply enum_intro; done.
Qed.

Lemma complement_ok d n : da_alloc d = true -> da_nc d = 1 -> 0 <= n -> ~ out_of_range n (da_vals d) ->
  exists k, buildComplement n d = Ok (Some <$> k) /\ enumerates (fun x => 0 <= x < n /\ x ∉ da_vals d) k.
Proof.
  intros Ha Hc Hn Ho. pose proof (complement_wp d n Ha Hc) as H. destruct (buildComplement n d) as [r| | |]; simpl in H; try tauto.
  - destruct H as (_ & _ & k & -> & Hk). exists k. done.
  - exfalso. destruct H; [lia|done].
Qed.
Lemma complement_throw d n : da_alloc d = true -> da_nc d = 1 ->
  buildComplement n d = Throw <-> n < 0 \/ out_of_range n (da_vals d).
Proof.
  intros Ha Hc. pose proof (complement_wp d n Ha Hc) as H. destruct (buildComplement n d) as [r| | |]; simpl in H; try tauto.
  split; [done|]. intros [?|?]; [lia|tauto].
Qed.
Lemma complement_involution l n : 0 <= n -> increasing l -> ~ out_of_range n l ->
  exists k, buildComplement n (vec l) = Ok (Some <$> k) /\ buildComplement n (vec k) = Ok (Some <$> l).
Proof.
  intros Hn Hl Ho. destruct (complement_ok (vec l) n) as (k & Hk & He); [done..|]. exists k. split; [done|].
  destruct He as [Hs He]. destruct (complement_ok (vec k) n) as (l' & Hl' & Hs' & He'); [done|done|done| |].
  { intros (v & Hv & Hv'). apply He in Hv. tauto. }
  rewrite Hl'. do 2 f_equal. apply (enumerates_ext (fun x => x ∈ l)); [|done]. split; [done|]. intros x. rewrite He'. simpl. rewrite He. simpl.
  split.
  - intros [Hx Hx']. destruct (decide (x ∈ l)); [done|]. exfalso. tauto.
  - intros Hx. split; [|tauto]. destruct (decide (0 <= x < n)); [done|]. exfalso. apply Ho. exists x. done.
Qed.

(** * Subtraction *)
Lemma substraction_ok d o : da_alloc d = true -> da_nc d = 1 -> da_alloc o = true -> da_nc o = 1 ->
  exists r, buildSubstraction d (Some o) = Ok r /\ enumerates (fun x => x ∈ da_vals d /\ x ∉ da_vals o) r.
Proof.
  intros Ha Hc Ha' Hc'. unfold buildSubstraction, checkAllocated, checkOneComp. rewrite Ha, Hc, Ha', Hc'. simpl.
  eexists; split; [reflexivity|]. destruct (set_difference_ok (set_of (da_vals d)) (set_of (da_vals o))) as [H1 H2]; [apply SS_set_of..|].
  apply enum_intro; [done|]. intros x. rewrite H2, !elem_of_set_of. done.
Qed.
Definition goodb {A} (d : da A) : bool := da_alloc d && (da_nc d =? 1).
Lemma goodb_false {A} (d : da A) : goodb d = false <-> bad_shape d.
Proof. unfold goodb, bad_shape. rewrite andb_false_iff, Z.eqb_neq. done. Qed.
Lemma four_checks {B} (d o : da Z) (k : res B) :
  checkAllocated d (checkAllocated o (checkOneComp d (checkOneComp o k))) = if goodb d && goodb o then k else Throw.
Proof.
  unfold checkAllocated, checkOneComp, ifthrow, goodb. destruct (da_alloc d), (da_alloc o), (da_nc d =? 1), (da_nc o =? 1); done.
Qed.
Lemma substraction_throw d o : (buildSubstraction d o = Throw <-> o = None \/ bad_shape d \/ exists o', o = Some o' /\ bad_shape o') /\
  (buildSubstractionOptimized d o = Throw <-> o = None \/ bad_shape d \/ exists o', o = Some o' /\ bad_shape o').
Proof.
  unfold buildSubstraction, buildSubstractionOptimized. destruct o as [o|]; [|split; (split; [by left|done])].
  rewrite !four_checks. destruct (goodb d && goodb o) eqn:E.
  - apply andb_true_iff in E as [E1 E2].
    assert (~ (Some o = None \/ bad_shape d \/ exists o', Some o = Some o' /\ bad_shape o')).
    { intros [H|[H|(o' & Ho & H)]]; [done| |injection Ho as <-]; apply goodb_false in H; congruence. }
    split; split; done.
  - apply andb_false_iff in E. assert (Some o = None \/ bad_shape d \/ exists o', Some o = Some o' /\ bad_shape o').
    { destruct E as [E|E]; apply goodb_false in E; [by right; left|right; right; eauto]. }
    split; split; done.
Qed.

Lemma subOpt_ok l1 l2 : SS l1 -> SS l2 -> (forall x, x ∈ l2 -> x ∈ l1) ->
  SS (subOptLoop l1 l2) /\ forall x, x ∈ subOptLoop l1 l2 <-> x ∈ l1 /\ x ∉ l2.
Proof.
  revert l2; induction l1 as [|x l1 IH]; intros l2 H1 H2 Hsub; simpl.
  - split; [constructor|set_solver].
  - destruct (SS_cons_inv _ _ H1) as [H1' Hx]. destruct l2 as [|y l2].
    + destruct (IH []) as [Hs He]; [done|done|set_solver|]. split.
      * apply SS_cons; [done|]. intros z Hz%He. apply Hx. tauto.
      * intros z. rewrite !elem_of_cons, He. set_solver.
    + destruct (SS_cons_inv _ _ H2) as [H2' Hy]. destruct (Z.eqb_spec x y) as [->|Hne].
      * destruct (IH l2) as [Hs He]; [done|done| |].
        { intros z Hz. assert (z ∈ y :: l1) as [->|?]%elem_of_cons by (apply Hsub; set_solver); [|done]. apply Hy in Hz. lia. }
        split; [done|]. intros z. rewrite He, !elem_of_cons. split; [|tauto]. intros [? ?]. split; [tauto|].
        intros [->|?]; [|tauto]. apply Hx in H. lia.
      * assert (Hxy : x < y). { assert (y ∈ x :: l1) as [->|Hi]%elem_of_cons by (apply Hsub; set_solver); [done|]. by apply Hx. }
        destruct (IH (y :: l2)) as [Hs He]; [done|done| |].
        { intros z Hz. assert (z ∈ x :: l1) as [->|?]%elem_of_cons by (apply Hsub; set_solver); [|done]. apply elem_of_cons in Hz as [->|Hz]; [lia|]. apply Hy in Hz. lia. }
        split.
        -- apply SS_cons; [done|]. intros z Hz%He. apply Hx. tauto.
        -- intros z. rewrite elem_of_cons, He, (elem_of_cons l1). split; [|tauto]. intros [->|?]; [|tauto]. split; [by left|].
           rewrite elem_of_cons. intros [->|Hz]; [lia|]. apply Hy in Hz. lia.
Qed.
Lemma substractionOptimized_ok l1 l2 : increasing l1 -> increasing l2 -> (forall x, x ∈ l2 -> x ∈ l1) ->
  buildSubstractionOptimized (vec l1) (Some (vec l2)) = buildSubstraction (vec l1) (Some (vec l2)).
Proof.
  intros H1 H2 Hsub. destruct (substraction_ok (vec l1) (vec l2)) as (r & -> & He); [done..|].
  unfold buildSubstractionOptimized. rewrite four_checks. change (Ok (subOptLoop l1 l2) = Ok r). f_equal. destruct (subOpt_ok l1 l2) as [Hs Hx]; [by apply increasing_SS..|done|].
  apply (enumerates_ext (fun x => x ∈ l1 /\ x ∉ l2)); [apply enum_intro; done|done].
Qed.

(** * Union, intersection *)
Lemma checkArrays_ok {B} a (k : res B) : (forall d, d ∈ a -> ~ bad_shape d) -> checkArrays a k = k.
Proof.
  unfold checkArrays. intros H. assert (foldM (fun (_ : unit) d => checkAllocated d (checkOneComp d (Ok tt))) a tt = Ok tt) as ->; [|done].
  induction a as [|d a IH]; simpl; [done|].
  assert (checkAllocated d (checkOneComp d (Ok tt)) = Ok tt) as ->; [|apply IH; set_solver].
  specialize (H d ltac:(set_solver)). unfold bad_shape in H. unfold checkAllocated, checkOneComp, ifthrow.
  destruct (da_alloc d); [|tauto]. destruct (Z.eqb_spec (da_nc d) 1); [done|tauto].
Qed.
Lemma checkArrays_throw {B} a (k : res B) : (exists d, d ∈ a /\ bad_shape d) -> checkArrays a k = Throw.
Proof.
  unfold checkArrays. intros (d & Hd & Hb). assert (foldM (fun (_ : unit) d => checkAllocated d (checkOneComp d (Ok tt))) a tt = Throw) as ->; [|done].
  induction a as [|d0 a IH]; simpl; [set_solver|].
  destruct (da_alloc d0) eqn:E1; [destruct (Z.eqb_spec (da_nc d0) 1) as [E2|E2]|].
  - unfold checkAllocated at 1, checkOneComp at 1. rewrite E1, E2. simpl. apply IH. apply elem_of_cons in Hd as [->|]; [|done].
    destruct Hb; [congruence|done].
  - rewrite bad_shape_throw by (right; done). done.
  - rewrite bad_shape_throw by (left; done). done.
Qed.
Lemma elem_of_notNull {A} (l : list (option A)) x : x ∈ notNull l <-> Some x ∈ l.
Proof.
  unfold notNull. rewrite elem_of_list_omap. split.
  - intros (y & Hy & Hx). unfold id in Hx. subst y. done.
  - intros H. exists (Some x). done.
Qed.

Lemma union_ok arr : (forall d, Some d ∈ arr -> ~ bad_shape d) ->
  exists r, BuildUnion arr = Ok r /\ enumerates (fun x => exists d, Some d ∈ arr /\ x ∈ da_vals d) r.
Proof.
  intros H. unfold BuildUnion. rewrite checkArrays_ok by (intros d Hd; apply H, elem_of_notNull, Hd).
  eexists; split; [reflexivity|].
  assert (Hg : forall a s, SS s -> SS (foldl (fun r d => sins_all (da_vals d) r) s a) /\
     forall x, x ∈ foldl (fun r d => sins_all (da_vals d) r) s a <-> x ∈ s \/ exists d, d ∈ a /\ x ∈ da_vals d).
  { induction a as [|d a IH]; intros s Hs; simpl; [split; [done|]; set_solver|].
    destruct (IH (sins_all (da_vals d) s)) as [H1 H2]; [by apply SS_sins_all|]. split; [done|]. intros x. rewrite H2, elem_of_sins_all.
    set_solver. }
  destruct (Hg (notNull arr) []) as [H1 H2]; [constructor|]. apply enum_intro; [done|]. intros x. rewrite H2.
  setoid_rewrite elem_of_notNull. set_solver.
Qed.
Lemma union_throw arr : BuildUnion arr = Throw <-> exists d, Some d ∈ arr /\ bad_shape d.
Proof.
  split.
  - intros H. destruct (decide (Exists (fun d : da Z => da_alloc d = false \/ da_nc d <> 1) (notNull arr))) as [E|E].
    + apply Exists_exists in E as (d & Hd & Hb). exists d. split; [by apply elem_of_notNull|done].
    + destruct (union_ok arr) as (r & Hr & _); [|congruence]. intros d Hd Hb. apply E, Exists_exists. exists d. split; [by apply elem_of_notNull|done].
  - intros (d & Hd & Hb). unfold BuildUnion. apply checkArrays_throw. exists d. split; [by apply elem_of_notNull|done].
Qed.

Lemma intersection_ok arr : (forall d, Some d ∈ arr -> ~ bad_shape d) -> zlen (notNull arr) <> 1 ->
  exists r, BuildIntersection arr = Ok r /\
    enumerates (fun x => (exists d, Some d ∈ arr) /\ forall d, Some d ∈ arr -> x ∈ da_vals d) r.
Proof.
  intros H Hl. unfold BuildIntersection. rewrite checkArrays_ok by (intros d Hd; apply H, elem_of_notNull, Hd).
  unfold ifthrow. replace (zlen (notNull arr) =? 1) with false by lia. eexists; split; [reflexivity|].
  eapply (enumerates_iff (fun x => (exists d, d ∈ notNull arr) /\ forall d, d ∈ notNull arr -> x ∈ da_vals d)).
  { intros x. setoid_rewrite elem_of_notNull. done. }
  destruct (notNull arr) as [|d0 a]; [apply enum_intro; [constructor|]; set_solver|].
  assert (Hg : forall a s, SS s -> SS (foldl (fun r d => sins_all (set_intersection r (set_of (da_vals d))) []) s a) /\
     forall x, x ∈ foldl (fun r d => sins_all (set_intersection r (set_of (da_vals d))) []) s a <-> x ∈ s /\ forall d, d ∈ a -> x ∈ da_vals d).
  { clear. induction a as [|d a IH]; intros s Hs; simpl; [split; [done|]; set_solver|].
    destruct (set_intersection_ok s (set_of (da_vals d))) as [H3 H4]; [done|apply SS_set_of|].
    destruct (IH (sins_all (set_intersection s (set_of (da_vals d))) [])) as [H1 H2]; [apply SS_sins_all; constructor|]. split; [done|].
    intros x. rewrite H2, elem_of_sins_all, H4, elem_of_set_of. set_solver. }
  destruct (Hg a (set_of (da_vals d0))) as [H1 H2]; [apply SS_set_of|]. apply enum_intro; [done|]. intros x. rewrite H2, elem_of_set_of. set_solver.
Qed.
Lemma intersection_throw arr : BuildIntersection arr = Throw <-> (exists d, Some d ∈ arr /\ bad_shape d) \/ zlen (notNull arr) = 1.
Proof.
  split.
  - intros H. destruct (decide (Exists (fun d : da Z => da_alloc d = false \/ da_nc d <> 1) (notNull arr))) as [E|E].
    + left. apply Exists_exists in E as (d & Hd & Hb). exists d. split; [by apply elem_of_notNull|done].
    + right. destruct (decide (zlen (notNull arr) = 1)); [done|].
      destruct (intersection_ok arr) as (r & Hr & _); [|done|congruence]. intros d Hd Hb. apply E, Exists_exists. exists d. split; [by apply elem_of_notNull|done].
  - intros H. unfold BuildIntersection. destruct (decide (Exists (fun d : da Z => da_alloc d = false \/ da_nc d <> 1) (notNull arr))) as [E|E].
    + apply checkArrays_throw. apply Exists_exists in E as (d & Hd & Hb). exists d. done.
    + destruct H as [(d & Hd & Hb)|H].
      * exfalso. apply E, Exists_exists. exists d. split; [by apply elem_of_notNull|done].
      * rewrite checkArrays_ok.
        -- unfold ifthrow. rewrite H. done.
        -- intros d Hd Hb. apply E, Exists_exists. exists d. done.
Qed.

(** * Duplicate removal *)
Lemma unique_ok d : da_alloc d = true -> da_nc d = 1 -> nondecreasing (da_vals d) ->
  exists r, buildUnique d = Ok r /\ enumerates (fun x => x ∈ da_vals d) r.
Proof.
  intros Ha Hc Hs. unfold buildUnique, checkAllocated, checkOneComp. rewrite Ha, Hc. simpl. eexists; split; [reflexivity|].
  destruct (unique_sorted (da_vals d)) as [H1 H2]; [|apply enum_intro; done].
  revert Hs. generalize (da_vals d). induction l as [|x l IH]; intros Hs; constructor.
  - apply IH. intros i j a b Hij Hi Hj. apply zlook_Some_lt in Hi as ?. apply zlook_Some_lt in Hj as ?.
    apply (Hs (i + 1) (j + 1)); [lia| |]; rewrite zlook_cons.
    + destruct (Z.eqb_spec (i + 1) 0); [lia|]. replace (i + 1 - 1) with i by lia. done.
    + destruct (Z.eqb_spec (j + 1) 0); [lia|]. replace (j + 1 - 1) with j by lia. done.
  - apply List.Forall_forall. intros y Hy%elem_of_list_In. apply elem_of_zlook in Hy as [j Hj]. apply zlook_Some_lt in Hj as ?.
    apply (Hs 0 (j + 1)); [lia|done|]. rewrite zlook_cons. destruct (Z.eqb_spec (j + 1) 0); [lia|]. replace (j + 1 - 1) with j by lia. done.
Qed.
Lemma differentValues_ok d : da_alloc d = true -> exists r, getDifferentValues d = Ok r /\ enumerates (fun x => x ∈ da_vals d) r.
Proof.
  intros Ha. unfold getDifferentValues, checkAllocated. rewrite Ha. simpl. eexists; split; [reflexivity|].
  apply enum_intro; [apply SS_set_of|]. intros; apply elem_of_set_of.
Qed.

(** Without the sorting assumption: the first value of each run. *)
Lemma unique_from_runs x l : runs_firsts_from (Some x) l (unique_from x l).
Proof.
  revert x; induction l as [|y l IH]; intros x; simpl.
  - constructor.
  - destruct (Z.eqb_spec x y) as [->|Hne]; [apply rff_same, IH|apply rff_new; [congruence|apply IH]].
Qed.
Lemma unique_runs d : da_alloc d = true -> da_nc d = 1 -> exists r, buildUnique d = Ok r /\ runs_firsts_from None (da_vals d) r.
Proof.
  intros Ha Hc. unfold buildUnique, checkAllocated, checkOneComp. rewrite Ha, Hc. simpl. eexists; split; [reflexivity|].
  destruct (da_vals d) as [|x l]; simpl; [constructor|]. apply rff_new; [done|]. apply unique_from_runs.
Qed.

Lemma minmax_fold l mn mx : foldl (fun '(mn, mx) v => (if v <? mn then v else mn, if mx <? v then v else mx)) (mn, mx) l =
  (foldl Z.min mn l, foldl Z.max mx l).
Proof.
  revert mn mx; induction l as [|v l IH]; intros mn mx; [done|]. cbn [foldl]. rewrite IH. f_equal; f_equal.
  - destruct (Z.ltb_spec v mn); lia.
  - destruct (Z.ltb_spec mx v); lia.
Qed.
Lemma fold_min_spec l m : foldl Z.min m l <= m /\ (forall v, v ∈ l -> foldl Z.min m l <= v) /\ (foldl Z.min m l = m \/ foldl Z.min m l ∈ l).
Proof.
  revert m; induction l as [|x l IH]; intros m; simpl; [split; [lia|]; split; [set_solver|auto]|].
  destruct (IH (Z.min m x)) as (H1 & H2 & H3). split; [lia|]. split.
  - intros v [->|Hv]%elem_of_cons; [lia|auto].
  - destruct H3 as [H3|H3]; [|right; set_solver]. destruct (Z.min_spec m x) as [[? E]|[? E]]; rewrite E in *; [left; lia|right; rewrite H3; set_solver].
Qed.
Lemma fold_max_spec l m : m <= foldl Z.max m l /\ (forall v, v ∈ l -> v <= foldl Z.max m l) /\ (foldl Z.max m l = m \/ foldl Z.max m l ∈ l).
Proof.
  revert m; induction l as [|x l IH]; intros m; simpl; [split; [lia|]; split; [set_solver|auto]|].
  destruct (IH (Z.max m x)) as (H1 & H2 & H3). split; [lia|]. split.
  - intros v [->|Hv]%elem_of_cons; [lia|auto].
  - destruct H3 as [H3|H3]; [|right; set_solver]. destruct (Z.max_spec m x) as [[? E]|[? E]]; rewrite E in *; [right; rewrite H3; set_solver|left; lia].
Qed.

Lemma minMax_ok big d : da_alloc d = true -> da_nc d = 1 -> da_vals d <> [] -> (forall v, v ∈ da_vals d -> - big <= v <= big) ->
  exists mn mx, getMinMaxValues big d = Ok (mn, mx) /\ mn ∈ da_vals d /\ mx ∈ da_vals d /\ forall v, v ∈ da_vals d -> mn <= v <= mx.
Proof.
  intros Ha Hc Hne Hb. unfold getMinMaxValues, checkAllocated, checkOneComp. rewrite Ha, Hc. simpl. rewrite minmax_fold.
  do 2 eexists. split; [reflexivity|].
  destruct (fold_min_spec (da_vals d) big) as (H1 & H2 & H3). destruct (fold_max_spec (da_vals d) (- big)) as (H4 & H5 & H6).
  destruct (da_vals d) as [|x l] eqn:E; [done|]. assert (Hx : x ∈ x :: l) by set_solver.
  split; [|split].
  - destruct H3 as [H3|]; [|done]. specialize (H2 x Hx). specialize (Hb x Hx). rewrite H3 in *. replace big with x at 1 by lia. done.
  - destruct H6 as [H6|]; [|done]. specialize (H5 x Hx). specialize (Hb x Hx). rewrite H6 in *. replace (- big) with x at 1 by lia. done.
  - intros v Hv. split; auto.
Qed.

Lemma uniqueNotSorted_ok big d : da_alloc d = true -> da_nc d = 1 -> da_vals d <> [] ->
  (forall v, v ∈ da_vals d -> - big <= v <= big) -> (forall v w, v ∈ da_vals d -> w ∈ da_vals d -> v - w + 1 <= big) ->
  exists r, buildUniqueNotSorted big d = Ok r /\ first_occurrences (da_vals d) r.
Proof.
  intros Ha Hc Hne Hb Hfit. unfold buildUniqueNotSorted, checkAllocated, checkOneComp. rewrite Ha, Hc. simpl.
  destruct (minMax_ok big d) as (mn & mx & -> & Hmn & Hmx & Hin); [done..|]. simpl.
  pose proof (Hfit mx mn Hmx Hmn). pose proof (Hin _ Hmn). pose proof (Hb _ Hmn). apply wp_ok.
  wstep; [lia|]. wstep; [lia|]. intros _. wstep. set (l := da_vals d) in *.
  apply (wp_foldM _ (fun pre '(b, ret) => zlen b = mx - mn + 1 /\
     (forall v, mn <= v <= mx -> exists s : bool, b @ (v - mn) = Some s /\ (s = true <-> v ∈ pre)) /\ first_occurrences pre ret)).
  - split; [rewrite zlen_replicate; lia|]. split.
    + intros v Hv. exists false. split; [apply zlook_replicate; lia|]. split; [done|set_solver].
    + exists []. split; [done|]. split; [intros ? ? ? ? ? Hi; rewrite zlook_nil in Hi; done|]. intros i. split; [set_solver|].
      intros (v & Hv & _). rewrite zlook_nil in Hv. done.
  - intros pre v post [b ret] Hl (Hlen & Hseen & ids & Hmap & Hinc & Hids).
    assert (Hv : v ∈ l) by (rewrite Hl; set_solver). pose proof (Hin v Hv) as Hv'. destruct (Hseen v Hv') as (s & Hs & Hs').
    wstep. wstep; [lia|]. intros s' Hs''. assert (s' = s) by congruence. subst s'.
    assert (Hgen : forall i x, first_pos (pre ++ [v]) x i <-> first_pos pre x i \/ (i = zlen pre /\ x = v /\ v ∉ pre)).
    { intros i x. split.
      - intros [G1 G2]. rewrite zlook_app in G1. destruct (Z.ltb_spec i (zlen pre)).
        + left. split; [done|]. intros k Hk. specialize (G2 k Hk). rewrite zlook_app_l in G2 by lia. done.
        + right. rewrite zlook_cons in G1. destruct (Z.eqb_spec (i - zlen pre) 0); [|rewrite zlook_nil in G1; done]. injection G1 as ->.
          split; [lia|]. split; [done|]. intros [k Hk]%elem_of_zlook. apply zlook_Some_lt in Hk as ?. apply (G2 k); [lia|]. rewrite zlook_app_l by lia. done.
      - intros [[G1 G2]|(-> & -> & Hn)].
        + apply zlook_Some_lt in G1 as ?. split; [rewrite zlook_app_l by lia; done|]. intros k Hk. rewrite zlook_app_l by lia. auto.
        + split; [apply zlook_snoc|]. intros k Hk. rewrite zlook_app_l by lia. intros Hk'. apply Hn. eapply zlook_elem; eauto. }
    destruct s; simpl.
    + split; [done|]. split.
      { intros w Hw. destruct (Hseen w Hw) as (t & Ht & Ht'). exists t. split; [done|]. rewrite Ht', elem_of_app, elem_of_list_singleton.
        split; [tauto|]. intros [?| ->]; [done|]. tauto. }
      exists ids. split; [|split; [done|]].
      * rewrite Hmap. apply list_fmap_ext. intros i x Hx. apply elem_of_list_lookup_2, Hids in Hx as (w & Hw & _).
        apply zlook_Some_lt in Hw as ?. rewrite zlook_app_l by lia. done.
      * intros i. rewrite Hids. setoid_rewrite Hgen. split; [intros (w & Hw); eauto|]. intros (w & [Hw|(_ & _ & Hn)]); [eauto|]. tauto.
    + assert (Hn : v ∉ pre) by (rewrite <- Hs'; done). wstep. wstep; [lia|]. simpl. split; [by rewrite zlen_zset|]. split.
      { intros w Hw. rewrite zlook_zset by lia. destruct (Z.eqb_spec (w - mn) (v - mn)).
        - exists true. split; [done|]. split; [|done]. intros _. assert (w = v) as -> by lia. set_solver.
        - destruct (Hseen w Hw) as (t & Ht & Ht'). exists t. split; [done|]. rewrite Ht', elem_of_app, elem_of_list_singleton.
          split; [tauto|]. intros [?| ->]; [done|]. lia. }
      exists (ids ++ [zlen pre]). rewrite !fmap_app. split; [|split].
      * f_equal.
        -- rewrite Hmap. apply list_fmap_ext. intros i x Hx. apply elem_of_list_lookup_2, Hids in Hx as (w & Hw & _).
           apply zlook_Some_lt in Hw as ?. rewrite zlook_app_l by lia. done.
        -- simpl. f_equal. symmetry. apply zlook_snoc.
      * apply increasing_SS. apply SS_snoc; [by apply increasing_SS|]. intros y (w & Hw & _)%Hids. apply zlook_Some_lt in Hw. lia.
      * intros i. rewrite elem_of_app, elem_of_list_singleton, Hids. setoid_rewrite Hgen. split.
        -- intros [(w & Hw)| ->]; [eauto|]. exists v. right. done.
        -- intros (w & [Hw|(-> & _ & _)]); [eauto|by right].
  - intros [b ret] (_ & _ & H'). done.
Qed.
Lemma uniqueNotSorted_empty : exists big d, 0 < big /\ da_alloc d = true /\ da_nc d = 1 /\ buildUniqueNotSorted big d = UB.
Proof. exists 100, (vec []). done. Qed.

(** * Groups of equal consecutive values *)
Lemma find_if_app_none p l : (forall v, v ∈ l -> p v = false) -> find_if p l = zlen l.
Proof. induction l as [|x l IH]; intros H; simpl; [done|]. rewrite H by set_solver. rewrite zlen_cons, IH; [done|]. set_solver. Qed.

Lemma packEnds_wp fuel : forall pre l, (length l < fuel)%nat -> (forall v w, pre @ (zlen pre - 1) = Some v -> l @ 0 = Some w -> v <> w) ->
  wp (packEnds fuel (zlen pre) l) (fun r => SS r /\ forall i, i ∈ r <-> zlen pre < i <= zlen pre + zlen l /\ (pre ++ l) @ (i - 1) <> (pre ++ l) @ i) False.
Proof.
  induction fuel as [|fuel IH]; intros pre l Hf Hb; [lia|]. destruct l as [|val l]; simpl.
  { split; [constructor|]. intros i. change (zlen (@nil Z)) with 0. split; [set_solver|lia]. }
  set (e := find_if (fun elt => negb (val =? elt)) l). destruct (find_if_spec (fun elt => negb (val =? elt)) l) as (He & Hbef & Hat). fold e in He, Hbef, Hat.
  set (run := val :: take (Z.to_nat e) l). set (rest := drop (Z.to_nat e) l).
  assert (Hrl : zlen run = 1 + e) by (unfold run; rewrite zlen_cons, zlen_take; lia).
  assert (Hval : forall k, 0 <= k < 1 + e -> run @ k = Some val).
  { intros k Hk. unfold run. rewrite zlook_cons. destruct (Z.eqb_spec k 0); [done|]. rewrite zlook_take by lia.
    destruct (zlook_lt l (k - 1)) as [v Hv]; [lia|]. rewrite Hv. f_equal. specialize (Hbef (k - 1) v ltac:(lia) Hv). simpl in Hbef. lia. }
  assert (Hsplit : pre ++ val :: l = (pre ++ run) ++ rest).
  { unfold run, rest. rewrite <- app_assoc. f_equal. simpl. f_equal. rewrite take_drop. done. }
  replace (zlen pre + 1 + e) with (zlen (pre ++ run)) by (rewrite zlen_app; lia).
  apply wp_bind. assert (Hrest : zlen rest = zlen l - e) by (unfold rest; rewrite zlen_drop; lia).
  eapply wp_mono; [apply (IH (pre ++ run) rest)| |done].
  - unfold zlen in *. simpl in Hf. lia.
  - intros v w Hv Hw. assert (v = val).
    { rewrite zlen_app, zlook_app_r in Hv by lia. rewrite Hval in Hv by lia. congruence. }
    subst v. unfold rest in Hw. rewrite zlook_drop in Hw by lia. apply zlook_Some_lt in Hw as ?.
    destruct Hat as (u & Hu & Hu'); [lia|]. replace (Z.of_nat (Z.to_nat e) + 0) with e in Hw by lia. assert (u = w) by congruence. subst. lia.
  - simpl. intros r [Hs Hr]. assert (Hlen : zlen (pre ++ run) = zlen pre + 1 + e) by (rewrite zlen_app; lia).
    split.
    + apply SS_cons; [done|]. intros y Hy%Hr. lia.
    + intros i. rewrite elem_of_cons, Hr. rewrite Hsplit. rewrite zlen_cons.
      split.
      * intros [->|[Hi Hne]]; [|split; [lia|done]]. split; [lia|]. rewrite zlook_app_l by lia. rewrite zlook_app_r by lia. rewrite Hval by lia.
        rewrite zlook_app_r by lia. rewrite Z.sub_diag. destruct (decide (e < zlen l)).
        -- destruct Hat as (u & Hu & Hu'); [lia|]. unfold rest. rewrite zlook_drop by lia. replace (Z.of_nat (Z.to_nat e) + 0) with e by lia. rewrite Hu.
           intros [= ->]. lia.
        -- rewrite (zlook_ge rest) by lia. done.
      * intros [Hi Hne]. destruct (Z.eqb_spec i (zlen pre + 1 + e)) as [->|Hni]; [left; lia|]. destruct (Z.lt_ge_cases i (zlen pre + 1 + e)).
        -- exfalso. apply Hne. rewrite (zlook_app_l _ rest (i - 1)), (zlook_app_l _ rest i) by lia. rewrite (zlook_app_r pre run (i - 1)), (zlook_app_r pre run i) by lia. rewrite !Hval by lia. done.
        -- right. split; [lia|done].
Qed.
Lemma groups_ok d : da_alloc d = true -> da_nc d = 1 -> exists r, indexOfSameConsecutiveValueGroups d = Ok r /\
  enumerates (fun i => i = 0 \/ (0 < i <= zlen (da_vals d) /\ da_vals d @ (i - 1) <> da_vals d @ i)) r.
Proof.
  intros Ha Hc. unfold indexOfSameConsecutiveValueGroups, checkAllocated, checkOneComp. rewrite Ha, Hc. cbn [negb ifthrow Z.eqb Pos.eqb].
  apply wp_ok. wstep. eapply wp_mono; [apply (packEnds_wp _ [])| |done]; [lia|intros ? ? Hv; rewrite zlook_nil in Hv; done|].
  change (zlen (@nil Z)) with 0. simpl ([] ++ _). intros r [Hs Hr]. simpl. apply enum_intro.
  - apply SS_cons; [done|]. intros y Hy%Hr. lia.
  - intros i. rewrite elem_of_cons, Hr. rewrite Z.add_0_l. tauto.
Qed.
