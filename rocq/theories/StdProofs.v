(** Facts about the standard algorithms of StdModel. *)
From Verif Require Import Base StdModel SearchSpec.
From Coq Require Import ZifyBool ZifyNat.

Notation SS := (StronglySorted Z.lt).

Lemma increasing_SS l : increasing l <-> SS l.
Proof.
  split.
  - induction l as [|x l IH]; intros H; [constructor|]. constructor.
    + apply IH. intros i j a b Hij Hi Hj. apply (H (i + 1) (j + 1)); [lia| |]; rewrite zlook_cons.
      * apply zlook_Some_lt in Hi as ?. destruct (Z.eqb_spec (i + 1) 0); [lia|]. rewrite <- Hi; f_equal; lia.
      * apply zlook_Some_lt in Hj as ?. destruct (Z.eqb_spec (j + 1) 0); [lia|]. rewrite <- Hj; f_equal; lia.
    + apply List.Forall_forall. intros y Hy%elem_of_list_In. apply elem_of_zlook in Hy as [j Hj]. apply (H 0 (j + 1)).
      * apply zlook_Some_lt in Hj. lia.
      * done.
      * rewrite zlook_cons. apply zlook_Some_lt in Hj as ?. destruct (Z.eqb_spec (j + 1) 0); [lia|]. rewrite <- Hj; f_equal; lia.
  - induction 1 as [|x l Hs IH Hf].
    + intros i j x y _ Hi. rewrite zlook_nil in Hi. done.
    + intros i j a b Hij Hi Hj. rewrite zlook_cons in Hi, Hj.
      destruct (Z.eqb_spec j 0) as [->|].
      { destruct (Z.eqb_spec i 0); [lia|]. apply zlook_Some_lt in Hi. lia. }
      destruct (Z.eqb_spec i 0) as [->|].
      * injection Hi as ->. apply (proj1 (List.Forall_forall _ _) Hf). apply elem_of_list_In. eapply zlook_elem; eauto.
      * apply (IH (i - 1) (j - 1)); [lia|done|done].
Qed.

Lemma SS_ext a b : SS a -> SS b -> (forall x, x ∈ a <-> x ∈ b) -> a = b.
Proof.
  intros Ha. revert b. induction Ha as [|x a Ha IH Hfa]; intros b Hb H.
  - destruct b as [|y b]; [done|]. exfalso. specialize (H y). set_solver.
  - destruct Hb as [|y b Hb Hfb]; [exfalso; specialize (H x); set_solver|].
    rewrite List.Forall_forall in Hfa, Hfb.
    assert (x = y).
    { destruct (Z.lt_trichotomy x y) as [L|[E|L]]; [|done|].
      - exfalso. assert (x ∈ y :: b) as [->|Hi]%elem_of_cons by (apply H; set_solver); [lia|].
        apply elem_of_list_In, Hfb in Hi. lia.
      - exfalso. assert (y ∈ x :: a) as [->|Hi]%elem_of_cons by (apply H; set_solver); [lia|].
        apply elem_of_list_In, Hfa in Hi. lia. }
    subst y. f_equal. apply IH; [done|]. intros z. split; intros Hz.
    + assert (z ∈ x :: b) as [->|]%elem_of_cons by (apply H; set_solver); [|done].
      apply elem_of_list_In, Hfa in Hz. lia.
    + assert (z ∈ x :: a) as [->|]%elem_of_cons by (apply H; set_solver); [|done].
      apply elem_of_list_In, Hfb in Hz. lia.
Qed.

Lemma enumerates_ext P r r' : enumerates P r -> enumerates P r' -> r = r'.
Proof.
  intros [H1 H2] [H1' H2']. apply SS_ext; [by apply increasing_SS..|]. intros x. rewrite H2, H2'. done.
Qed.

Lemma SS_NoDup l : SS l -> NoDup l.
Proof.
  induction 1 as [|x l Hs IH Hf]; constructor; [|done]. intros Hx%elem_of_list_In.
  rewrite List.Forall_forall in Hf. apply Hf in Hx. lia.
Qed.

Lemma SS_snoc l x : SS l -> (forall y, y ∈ l -> y < x) -> SS (l ++ [x]).
Proof.
  induction 1 as [|y l Hs IH Hf]; intros H; simpl; [repeat constructor|].
  constructor; [apply IH; set_solver|]. apply List.Forall_forall. intros z Hz%elem_of_list_In.
  apply elem_of_app in Hz as [Hz|Hz].
  - rewrite List.Forall_forall in Hf. apply Hf, elem_of_list_In, Hz.
  - apply elem_of_list_singleton in Hz as ->. apply H. set_solver.
Qed.

(** std::set *)
Lemma elem_of_sins x y s : y ∈ sins x s <-> y = x \/ y ∈ s.
Proof.
  induction s as [|z s IH]; simpl; [set_solver|].
  destruct (Z.ltb_spec x z); [set_solver|]. destruct (Z.ltb_spec z x); [set_solver|].
  assert (x = z) by lia. set_solver.
Qed.
Lemma SS_sins x s : SS s -> SS (sins x s).
Proof.
  induction 1 as [|z s Hs IH Hf]; simpl; [repeat constructor|].
  destruct (Z.ltb_spec x z).
  - constructor; [constructor; done|]. constructor; [done|]. eapply List.Forall_impl; [|apply Hf]. simpl; intros; lia.
  - destruct (Z.ltb_spec z x); [|constructor; done]. constructor; [done|].
    apply List.Forall_forall. intros y Hy%elem_of_list_In. apply elem_of_sins in Hy as [->|Hy]; [done|].
    rewrite List.Forall_forall in Hf. apply Hf, elem_of_list_In, Hy.
Qed.
Lemma elem_of_sins_all l s x : x ∈ sins_all l s <-> x ∈ l \/ x ∈ s.
Proof.
  unfold sins_all. revert s; induction l as [|y l IH]; intros s; simpl; [set_solver|].
  rewrite IH, elem_of_sins. set_solver.
Qed.
Lemma SS_sins_all l s : SS s -> SS (sins_all l s).
Proof. unfold sins_all. revert s; induction l as [|y l IH]; intros s Hs; simpl; [done|]. apply IH, SS_sins, Hs. Qed.
Lemma elem_of_set_of l x : x ∈ set_of l <-> x ∈ l.
Proof. unfold set_of. rewrite elem_of_sins_all. set_solver. Qed.
Lemma SS_set_of l : SS (set_of l).
Proof. apply SS_sins_all. constructor. Qed.
Lemma smem_spec x s : smem x s = true <-> x ∈ s.
Proof.
  induction s as [|y s IH]; simpl; [set_solver|]. rewrite orb_true_iff, IH, Z.eqb_eq. set_solver.
Qed.
Lemma set_of_NoDup l : zlen (set_of l) = zlen l <-> NoDup l.
Proof.
  split.
  - intros Hl. assert (Hp : set_of l ≡ₚ l).
    { apply submseteq_Permutation_length_le; [unfold zlen in Hl; lia|].
      apply NoDup_submseteq; [apply SS_NoDup, SS_set_of|]. intros x. apply elem_of_set_of. }
    rewrite <- Hp. apply SS_NoDup, SS_set_of.
  - intros Hn. unfold zlen. f_equal. apply Permutation_length. apply NoDup_Permutation; [apply SS_NoDup, SS_set_of|done|].
    apply elem_of_set_of.
Qed.

(** std::map *)
Definition keys_sorted {V} (m : list (Z * V)) : Prop := SS (m.*1).
Lemma mget_mset {V} k (v : V) m k' : keys_sorted m -> mget k' (mset k v m) = if k' =? k then Some v else mget k' m.
Proof.
  unfold keys_sorted. induction m as [|[k0 v0] m IH]; simpl; intros Hs.
  - destruct (Z.eqb_spec k' k); done.
  - inversion Hs as [|? ? Hs' Hf]; subst. destruct (Z.ltb_spec k k0); simpl.
    + destruct (Z.eqb_spec k' k); done.
    + destruct (Z.ltb_spec k0 k); simpl.
      * rewrite IH by done. destruct (Z.eqb_spec k' k0), (Z.eqb_spec k' k); try done. lia.
      * assert (k = k0) by lia. subst k0. destruct (Z.eqb_spec k' k); done.
Qed.
Lemma mset_keys {V} k (v : V) m : (mset k v m).*1 = sins k (m.*1).
Proof.
  induction m as [|[k0 v0] m IH]; simpl; [done|].
  destruct (Z.ltb_spec k k0); simpl; [done|]. destruct (Z.ltb_spec k0 k); simpl; [f_equal; exact IH|]. f_equal.
Qed.
Lemma mset_sorted {V} k (v : V) m : keys_sorted m -> keys_sorted (mset k v m).
Proof. unfold keys_sorted. rewrite mset_keys. apply SS_sins. Qed.
Lemma mget_None {V} k (m : list (Z * V)) : mget k m = None <-> k ∉ m.*1.
Proof.
  induction m as [|[k0 v0] m IH]; simpl; [set_solver|].
  destruct (Z.eqb_spec k k0); [set_solver|]. rewrite IH. set_solver.
Qed.

(** std::sort, std::unique *)
Lemma sort_perm l : sort l ≡ₚ l.
Proof. apply merge_sort_Permutation. Qed.
#[export] Instance Zle_total : Total Z.le.
Proof. intros x y. lia. Qed.
#[export] Instance Zle_trans : Transitive Z.le.
Proof. intros x y z; lia. Qed.
Lemma sort_sorted l : StronglySorted Z.le (sort l).
Proof. apply StronglySorted_merge_sort; apply _. Qed.
Lemma sort_len l : zlen (sort l) = zlen l.
Proof. unfold zlen. f_equal. apply Permutation_length, sort_perm. Qed.
Lemma sort_eq l l' : sort l = sort l' <-> l ≡ₚ l'.
Proof.
  split.
  - intros H. rewrite <- (sort_perm l), H. apply sort_perm.
  - intros H. apply (StronglySorted_unique Z.le); [apply sort_sorted..|]. rewrite !sort_perm. done.
Qed.

Lemma unique_from_elem x l y : y ∈ unique_from x l -> y ∈ l.
Proof.
  revert x; induction l as [|z l IH]; intros x; simpl; [done|]. destruct (Z.eqb_spec x z).
  - intros H. apply IH in H. set_solver.
  - intros H. apply elem_of_cons in H as [->|H]; [set_solver|]. apply IH in H. set_solver.
Qed.
Lemma unique_from_len x l : (length (unique_from x l) <= length l)%nat.
Proof. revert x; induction l as [|z l IH]; intros x; simpl; [lia|]. pose proof (IH x); pose proof (IH z). destruct (x =? z); simpl; lia. Qed.
Lemma unique_len_le l : zlen (unique l) <= zlen l.
Proof. unfold zlen. destruct l as [|x l]; simpl; [lia|]. pose proof (unique_from_len x l). lia. Qed.

Lemma unique_from_sorted x l : StronglySorted Z.le (x :: l) -> SS (x :: unique_from x l) /\ (forall y, y ∈ x :: unique_from x l <-> y ∈ x :: l).
Proof.
  revert x; induction l as [|z l IH]; intros x Hs; simpl.
  - split; [repeat constructor|done].
  - inversion Hs as [|? ? Hs' Hf]; subst. inversion Hf as [|? ? Hxz Hf']; subst.
    destruct (Z.eqb_spec x z) as [->|Hne].
    + destruct (IH z Hs') as [H1 H2]. split; [done|]. intros y. rewrite H2. set_solver.
    + destruct (IH z Hs') as [H1 H2]. split; [|intros y; specialize (H2 y); set_solver].
      constructor; [done|]. inversion H1 as [|? ? H3 H4]; subst. constructor; [lia|].
      eapply List.Forall_impl; [|apply H4]. simpl; intros; lia.
Qed.
Lemma unique_sorted l : StronglySorted Z.le l -> SS (unique l) /\ (forall y, y ∈ unique l <-> y ∈ l).
Proof.
  destruct l as [|x l]; simpl; intros Hs; [split; [constructor|done]|]. apply unique_from_sorted, Hs.
Qed.
Lemma sort_unique_len l : zlen (unique (sort l)) = zlen l <-> NoDup l.
Proof.
  destruct (unique_sorted (sort l)) as [H1 H2]; [apply sort_sorted|].
  assert (unique (sort l) = set_of l) as ->.
  { apply SS_ext; [done|apply SS_set_of|]. intros x. rewrite H2, elem_of_set_of. rewrite (sort_perm l). done. }
  apply set_of_NoDup.
Qed.

(** The two-cursor algorithms *)
Lemma set_difference_nil_r a : set_difference a [] = a.
Proof. destruct a; done. Qed.
Lemma set_difference_cons x a y b : set_difference (x :: a) (y :: b) =
  if x <? y then x :: set_difference a (y :: b) else if y <? x then set_difference (x :: a) b else set_difference a b.
Proof. done. Qed.
Lemma set_intersection_nil_r a : set_intersection a [] = [].
Proof. destruct a; done. Qed.
Lemma set_intersection_cons x a y b : set_intersection (x :: a) (y :: b) =
  if x <? y then set_intersection a (y :: b) else if y <? x then set_intersection (x :: a) b else x :: set_intersection a b.
Proof. done. Qed.

Lemma SS_cons_inv x l : SS (x :: l) -> SS l /\ forall y, y ∈ l -> x < y.
Proof.
  inversion 1 as [|? ? Hs Hf]; subst. split; [done|]. intros y Hy. rewrite List.Forall_forall in Hf. apply Hf, elem_of_list_In, Hy.
Qed.
Lemma SS_cons x l : SS l -> (forall y, y ∈ l -> x < y) -> SS (x :: l).
Proof. intros H1 H2. constructor; [done|]. apply List.Forall_forall. intros y Hy%elem_of_list_In. auto. Qed.

Lemma set_difference_ok a b : SS a -> SS b -> SS (set_difference a b) /\ forall x, x ∈ set_difference a b <-> x ∈ a /\ x ∉ b.
Proof.
  revert b; induction a as [|x a IHa]; intros b Ha Hb.
  - destruct b; simpl; (split; [constructor|set_solver]).
  - induction b as [|y b IHb]; [rewrite set_difference_nil_r; split; [done|set_solver]|].
    destruct (SS_cons_inv _ _ Ha) as [Ha' Hxa]. destruct (SS_cons_inv _ _ Hb) as [Hb' Hyb].
    rewrite set_difference_cons. destruct (Z.ltb_spec x y); [|destruct (Z.ltb_spec y x)].
    + destruct (IHa (y :: b) Ha' Hb) as [H1 H2]. split.
      * apply SS_cons; [done|]. intros z Hz. apply H2 in Hz. apply Hxa. tauto.
      * intros z. rewrite !elem_of_cons, H2, elem_of_cons. split; [|tauto].
        intros [->|?]; [|tauto]. split; [by left|]. intros [->|Hz]; [lia|]. apply Hyb in Hz. lia.
    + destruct (IHb Hb') as [H1 H2]. split; [done|]. intros z. rewrite H2, !elem_of_cons. split; [|tauto].
      intros [Hz Hz']. split; [done|]. intros [->|?]; [|tauto]. destruct Hz as [->|Hz]; [lia|]. apply Hxa in Hz. lia.
    + assert (x = y) by lia. subst y. destruct (IHa b Ha' Hb') as [H1 H2]. split; [done|].
      intros z. rewrite H2, !elem_of_cons. split; [|tauto]. intros [Hz Hz']. split; [tauto|]. intros [->|?]; [|tauto].
      apply Hxa in Hz. lia.
Qed.

Lemma set_intersection_ok a b : SS a -> SS b -> SS (set_intersection a b) /\ forall x, x ∈ set_intersection a b <-> x ∈ a /\ x ∈ b.
Proof.
  revert b; induction a as [|x a IHa]; intros b Ha Hb.
  - destruct b; simpl; (split; [constructor|set_solver]).
  - induction b as [|y b IHb]; [rewrite set_intersection_nil_r; split; [constructor|set_solver]|].
    destruct (SS_cons_inv _ _ Ha) as [Ha' Hxa]. destruct (SS_cons_inv _ _ Hb) as [Hb' Hyb].
    rewrite set_intersection_cons. destruct (Z.ltb_spec x y); [|destruct (Z.ltb_spec y x)].
    + destruct (IHa (y :: b) Ha' Hb) as [H1 H2]. split; [done|].
      intros z. rewrite H2, !elem_of_cons. split; [tauto|].
      intros [[->|?] Hz]; [|tauto]. destruct Hz as [->|Hz]; [lia|]. apply Hyb in Hz. lia.
    + destruct (IHb Hb') as [H1 H2]. split; [done|]. intros z. rewrite H2, !elem_of_cons. split; [tauto|].
      intros [Hz [->|Hz']]; [|tauto]. destruct Hz as [->|Hz]; [lia|]. apply Hxa in Hz. lia.
    + assert (x = y) by lia. subst y. destruct (IHa b Ha' Hb') as [H1 H2]. split.
      * apply SS_cons; [done|]. intros z Hz. apply H2 in Hz. apply Hxa. tauto.
      * intros z. rewrite !elem_of_cons, H2. split; [tauto|]. intros [[->|?] [?|?]]; subst; try tauto; try (left; reflexivity).
Qed.

(** std::search, std::find_if *)
Lemma prefixb_spec pat l : prefixb pat l = true <-> occurs_at pat l 0.
Proof.
  revert l; induction pat as [|p pat IH]; intros l.
  - simpl. split; [|done]. intros _. split; [lia|]. split; [unfold zlen; simpl; lia|].
    intros k Hk. unfold zlen in Hk; simpl in Hk; lia.
  - destruct l as [|x l]; simpl.
    + split; [done|]. intros (_ & H & _). unfold zlen in H; simpl in H; lia.
    + rewrite andb_true_iff, IH, Z.eqb_eq. unfold occurs_at. rewrite !zlen_cons. split.
      * intros [-> (_ & Hl & H)]. split; [lia|]. split; [lia|]. intros k Hk. rewrite !zlook_cons.
        destruct (Z.eqb_spec (0 + k) 0), (Z.eqb_spec k 0); try lia; try done. rewrite <- H by lia. f_equal; lia.
      * intros (_ & Hl & H). pose proof (zlen_nonneg pat). split.
        -- specialize (H 0 ltac:(lia)). rewrite !zlook_cons in H. simpl in H. congruence.
        -- split; [lia|]. split; [lia|]. intros k Hk. specialize (H (k + 1) ltac:(lia)). rewrite !zlook_cons in H.
           destruct (Z.eqb_spec (0 + (k + 1)) 0), (Z.eqb_spec (k + 1) 0); try lia.
           replace (0 + (k + 1) - 1) with (0 + k) in H by lia. replace (k + 1 - 1) with k in H by lia. done.
Qed.

Lemma occurs_at_cons {A} (pat : list A) x l i : 0 <= i -> occurs_at pat (x :: l) (i + 1) <-> occurs_at pat l i.
Proof.
  intros Hi. unfold occurs_at. rewrite zlen_cons. split; intros (? & ? & H); (split; [lia|]; split; [lia|]); intros k Hk;
    specialize (H k Hk); rewrite zlook_cons in *; destruct (Z.eqb_spec (i + 1 + k) 0); try lia;
    replace (i + 1 + k - 1) with (i + k) in * by lia; done.
Qed.

Lemma search_spec l pat : 0 <= search l pat <= zlen l /\ (forall k, 0 <= k < search l pat -> ~ occurs_at pat l k) /\
  (search l pat < zlen l -> occurs_at pat l (search l pat)) /\ (pat <> [] -> forall k, search l pat = zlen l -> ~ occurs_at pat l k).
Proof.
  induction l as [|x l IH].
  - assert (Hs : search [] pat = 0) by (destruct pat; done). rewrite Hs. change (zlen (@nil Z)) with 0.
    split; [lia|]. split; [lia|]. split; [lia|].
    intros Hp k _ (H1 & H2 & _). destruct pat; [done|]. rewrite zlen_cons in H2; change (zlen (@nil Z)) with 0 in H2. pose proof (zlen_nonneg pat). lia.
  - change (search (x :: l) pat) with (if prefixb pat (x :: l) then 0 else 1 + search l pat).
    destruct (prefixb pat (x :: l)) eqn:E.
    + apply prefixb_spec in E. rewrite zlen_cons. pose proof (zlen_nonneg l). split; [lia|]. split; [lia|].
      split; [done|]. intros _ k Hk. lia.
    + destruct IH as (H1 & H2 & H3 & H4). rewrite zlen_cons.
      assert (Hn0 : ~ occurs_at pat (x :: l) 0) by (rewrite <- prefixb_spec; congruence).
      split; [lia|]. split; [|split].
      * intros k Hk. destruct (Z.eqb_spec k 0) as [->|]; [done|]. replace k with (k - 1 + 1) by lia.
        rewrite occurs_at_cons by lia. apply H2. lia.
      * intros Hk. rewrite (Z.add_comm 1), occurs_at_cons by lia. apply H3. lia.
      * intros Hp k Hk. destruct (Z.eqb_spec k 0) as [->|]; [done|]. intros Ho. assert (0 <= k) by (destruct Ho; lia).
        replace k with (k - 1 + 1) in Ho by lia. rewrite occurs_at_cons in Ho by lia. apply (H4 Hp (k - 1)); [lia|done].
Qed.

Lemma find_if_spec p l : 0 <= find_if p l <= zlen l /\ (forall k v, k < find_if p l -> l @ k = Some v -> p v = false) /\
  (find_if p l < zlen l -> exists v, l @ (find_if p l) = Some v /\ p v = true).
Proof.
  induction l as [|x l IH]; simpl.
  - split; [unfold zlen; simpl; lia|]. split; [intros k v _ Hk; rewrite zlook_nil in Hk; done|unfold zlen; simpl; lia].
  - rewrite zlen_cons. pose proof (zlen_nonneg l). destruct (p x) eqn:E.
    + split; [lia|]. split; [|intros _; exists x; done].
      intros k v Hk Hl. apply zlook_Some_lt in Hl. lia.
    + destruct IH as (H1 & H2 & H3). split; [lia|]. split.
      * intros k v Hk Hl. rewrite zlook_cons in Hl. destruct (Z.eqb_spec k 0); [congruence|]. apply (H2 (k - 1)); [lia|done].
      * intros Hk. destruct H3 as [v Hv]; [lia|]. exists v. rewrite zlook_cons. destruct (Z.eqb_spec (1 + find_if p l) 0); [lia|].
        replace (1 + find_if p l - 1) with (find_if p l) by lia. done.
Qed.
