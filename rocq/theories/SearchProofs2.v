From Verif Require Import Base DataArray ArrLib RenumSpec RenumProofs StdModel SearchSpec SearchModel StdProofs SearchProofs.
From Coq Require Import ZifyBool ZifyNat.

Lemma findIds_order d : da_alloc d = true -> da_nc d = 1 ->
  (exists r, findIdsStrictlyNegative d = Ok r /\ ids_where (fun v => v < 0) (da_vals d) r) /\
  forall val,
  (exists r, findIdsGreaterOrEqualTo val d = Ok r /\ ids_where (fun v => val <= v) (da_vals d) r) /\
  (exists r, findIdsGreaterThan val d = Ok r /\ ids_where (fun v => val < v) (da_vals d) r) /\
  (exists r, findIdsLowerOrEqualTo val d = Ok r /\ ids_where (fun v => v <= val) (da_vals d) r) /\
  (exists r, findIdsLowerThan val d = Ok r /\ ids_where (fun v => v < val) (da_vals d) r).
Proof. intros Ha Hc. split; [|intros val; split; [|split; [|split]]]; apply findIdsAdv_ok; try done; intros v; lia. Qed.
Lemma findIdsInRange_ok d : da_alloc d = true -> da_nc d = 1 -> forall vmin vmax,
  exists r, findIdsInRange vmin vmax d = Ok r /\ ids_where (fun v => vmin <= v < vmax) (da_vals d) r.
Proof. intros Ha Hc vmin vmax. apply findIdsAdv_ok; try done. intros v; lia. Qed.
Lemma findIdsNotInRange_ok d : da_alloc d = true -> da_nc d = 1 -> forall vmin vmax,
  exists r, findIdsNotInRange vmin vmax d = Ok r /\ ids_where (fun v => v < vmin \/ vmax <= v) (da_vals d) r.
Proof. intros Ha Hc vmin vmax. apply findIdsAdv_ok; try done. intros v; lia. Qed.
Lemma count_is_findIds d : da_alloc d = true -> da_nc d = 1 -> forall val,
  exists r, findIdsEqual val d = Ok r /\ countValue val d = Ok (zlen r).
Proof.
  intros Ha Hc val. destruct (findIdsEqual_ok d Ha Hc val) as (r & Hr & _). exists r. split; [done|].
  rewrite countValue_ok by done. f_equal. symmetry. apply findIdsEqual_count; done.
Qed.
Lemma ids_partition {A} (P Q : A -> Prop) l r s : (forall v, P v \/ Q v) -> (forall v, P v -> ~ Q v) -> ids_where P l r -> ids_where Q l s ->
  r ++ s ≡ₚ seqZ 0 (zlen l).
Proof.
  intros Hor Hex [Hr1 Hr2] [Hs1 Hs2]. apply NoDup_Permutation.
  - apply NoDup_app. split; [|split].
    + apply SS_NoDup, increasing_SS. done.
    + intros i Hi Hi'. apply Hr2 in Hi as (v & Hv & HP). apply Hs2 in Hi' as (w & Hw & HQ). assert (w = v) as -> by congruence. by apply (Hex v).
    + apply SS_NoDup, increasing_SS. done.
  - apply NoDup_seqZ.
  - intros i. rewrite elem_of_app, Hr2, Hs2, elem_of_seqZ. split.
    + intros [(v & Hv & _)|(v & Hv & _)]; apply zlook_Some_lt in Hv; lia.
    + intros Hi. destruct (zlook_lt l i) as [v Hv]; [lia|]. destruct (Hor v); [left|right]; eauto.
Qed.
Lemma findIds_partition d : da_alloc d = true -> da_nc d = 1 ->
  (forall val, exists r s, findIdsEqual val d = Ok r /\ findIdsNotEqual val d = Ok s /\ r ++ s ≡ₚ seqZ 0 (da_nt d)) /\
  (forall vals, exists r s, findIdsEqualList vals d = Ok r /\ findIdsNotEqualList vals d = Ok s /\ r ++ s ≡ₚ seqZ 0 (da_nt d)) /\
  (forall vmin vmax, exists r s, findIdsInRange vmin vmax d = Ok r /\ findIdsNotInRange vmin vmax d = Ok s /\ r ++ s ≡ₚ seqZ 0 (da_nt d)).
Proof.
  intros Ha Hc. rewrite da_nt_one by done. split; [|split].
  - intros val. destruct (findIdsEqual_ok d Ha Hc val) as (r & Hr & Hr'). destruct (findIdsNotEqual_ok d Ha Hc val) as (s & Hs & Hs').
    exists r, s. split; [done|]. split; [done|]. eapply ids_partition; [| |exact Hr'|exact Hs']; intros v; simpl; lia.
  - intros vals. destruct (findIdsEqualList_ok d Hc vals) as (r & Hr & Hr'). destruct (findIdsNotEqualList_ok d Hc vals) as (s & Hs & Hs').
    exists r, s. split; [done|]. split; [done|]. eapply ids_partition; [| |exact Hr'|exact Hs']; intros v; simpl.
    + destruct (decide (v ∈ vals)); tauto.
    + tauto.
  - intros a b. destruct (findIdsInRange_ok d Ha Hc a b) as (r & Hr & Hr'). destruct (findIdsNotInRange_ok d Ha Hc a b) as (s & Hs & Hs').
    exists r, s. split; [done|]. split; [done|]. eapply ids_partition; [| |exact Hr'|exact Hs']; intros v; simpl; lia.
Qed.
Lemma findIds_bad_shape d : bad_shape d -> forall v w vs,
  findIdsEqual v d = Throw /\ findIdsNotEqual v d = Throw /\ findIdsInRange v w d = Throw /\ findIdsNotInRange v w d = Throw /\
  findIdFirstEqual v d = Throw /\ findIdFirstEqualAny vs d = Throw /\ countValue v d = Throw.
Proof. intros H v w vs. repeat split; apply bad_shape_throw; done. Qed.
Lemma guess_ok d : da_alloc d = true -> da_nc d = 1 ->
  (exists r, checkUniformAndGuess d = Ok r /\ da_vals d <> [] /\ forall v, v ∈ da_vals d -> v = r) \/
  (checkUniformAndGuess d = Throw /\ (da_vals d = [] \/ exists a b, a ∈ da_vals d /\ b ∈ da_vals d /\ a <> b)).
Proof.
  intros Ha Hc. pose proof (guess_wp d Ha Hc) as H. destruct (checkUniformAndGuess d) as [r| | |]; simpl in H; try done.
  - left. exists r. done.
  - right. done.
Qed.
Lemma checkAllIds_ok d : da_alloc d = true -> da_nc d = 1 -> forall vmin vmax,
  (checkAllIdsInRange vmin vmax d = Throw <-> exists v, v ∈ da_vals d /\ ~ vmin <= v < vmax) /\
  ((forall v, v ∈ da_vals d -> vmin <= v < vmax) ->
    exists b, checkAllIdsInRange vmin vmax d = Ok b /\ (b = true <-> da_vals d = seqZ 0 (da_nt d))).
Proof.
  intros Ha Hc vmin vmax. rewrite da_nt_one by done. pose proof (checkAllIds_wp d Ha Hc vmin vmax) as H. destruct (checkAllIdsInRange _ _ d) as [r| | |]; simpl in H; try done.
  - destruct H as [H1 H2]. split; [split; [done|]|].
    + intros (v & Hv & Hn). exfalso. auto.
    + intros _. exists r. done.
  - split; [done|]. intros Hall. destruct H as (v & Hv & Hn). exfalso. auto.
Qed.
