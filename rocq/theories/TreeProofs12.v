From Coq Require Import QArith Qabs Lqa ZifyBool ZifyNat.
From Verif Require Import Base DataArray ArrLib IndexSpec TreeModel TreeModel2 TreeSpec TreeProofs TreeProofs2 TreeProofs4 TreeProofs5 TreeProofs7 TreeProofs8 TreeProofs9 TreeProofs10 TreeProofs11.
Local Open Scope Z_scope.

Lemma tree_intersecting bbs dim n eps bb : boxes bbs dim n -> 2 * dim <= zlen bb -> exists t l, BBTree bbs dim n eps = Ok t /\ (forall elems, getIntersectingElems bbs dim eps t bb elems = Ok (elems ++ l)) /\
  getNbOfIntersectingElems bbs dim eps t bb = Ok (zlen l) /\ NoDup l /\ forall e, e ∈ l <-> 0 <= e < n /\ overlap bbs dim e eps bb 0.
Proof.
  intros HB Hb. destruct (BBTree_ok bbs dim n eps HB) as (t & E & P & G). eexists t, _. split; [done|]. split; [by apply (getIntersecting_ok bbs dim n)|]. split; [by apply (getNb_ok bbs dim n)|].
  apply result_ok; [by apply intersects_ok|done].
Qed.
Lemma tree_around bbs dim n eps xx : boxes bbs dim n -> dim <= zlen xx -> exists t l, BBTree bbs dim n eps = Ok t /\ (forall elems, getElementsAroundPoint bbs dim eps t xx elems = Ok (elems ++ l)) /\
  NoDup l /\ forall e, e ∈ l <-> 0 <= e < n /\ contains bbs dim e eps xx.
Proof.
  intros HB Hb. destruct (BBTree_ok bbs dim n eps HB) as (t & E & P & G). eexists t, _. split; [done|]. split; [by apply (getAround_ok bbs dim n)|].
  apply result_ok; [by apply around_ok|done].
Qed.
Lemma tree_points pts dim n eps xx : points pts dim n -> dim <= zlen xx -> exists t l, BBTreePts pts dim n eps = Ok t /\ (forall elems, getPointsAround pts dim eps t xx elems = Ok (elems ++ l)) /\
  NoDup l /\ forall e, e ∈ l <-> 0 <= e < n /\ near pts dim e eps xx 0.
Proof.
  intros HB Hb. destruct (BBTreePts_ok pts dim n eps HB) as (t & E & P & G). eexists t, _. split; [done|]. split; [by apply (getPts_ok pts dim n)|].
  apply result_ok; [by apply close_ok|done].
Qed.
Lemma tree_terminals bbs dim n eps : boxes bbs dim n -> exists t, BBTree bbs dim n eps = Ok t /\ size t = n /\
  flat_map contents (walk t []) ≡ₚ seqZ 0 n /\ (forall x, x ∈ walk t [] -> contents x <> []) /\
  exists F ts, (forall fuel, (F <= fuel)%nat -> iterate fuel [t] [] = Ok ts) /\ flat_map contents ts ≡ₚ seqZ 0 n.
Proof.
  intros HB. destruct (BBTree_ok bbs dim n eps HB) as (t & E & P & G). exists t. split; [done|]. split; [rewrite size_ok; unfold zlen; rewrite P, seqZ_length; destruct HB as (? & ? & _); lia|].
  destruct (walk_ok t) as [W1 W2]. split; [by rewrite W1|]. split; [by apply Forall_forall|].
  exists (wsum [t]), (terminals t). split; [intros fuel Hf; rewrite iterate_ok by done; cbn; by rewrite app_nil_r|]. by rewrite terminals_ok.
Qed.
(** [0,1] and [1,2] touch one another. *)
Lemma doc_refuted : ~ forall bbs dim n eps bb t l, boxes bbs dim n -> 2 * dim <= zlen bb -> (0 <= eps)%Q -> BBTree bbs dim n eps = Ok t -> getIntersectingElems bbs dim eps t bb [] = Ok l ->
  forall e, 0 <= e < n -> overlap bbs dim e 0 bb 0 -> e ∈ l.
Proof.
  intros H. specialize (H [0%Q; 1%Q] 1 1 (1#2)%Q [1%Q; 2%Q] (Leaf 0 [0]) [] ltac:(done) ltac:(done) ltac:(discriminate) eq_refl eq_refl 0 ltac:(lia)).
  apply (not_elem_of_nil (A := Z) 0). apply H. intros k Hk. replace k with 0 by lia. vm_compute. split; discriminate.
Qed.
Definition q012 : da Q := DA true 1 [0%Q; 1%Q; 2%Q].
Definition q555 : da Q := DA true 1 [5%Q; 5%Q; 5%Q].
Lemma wf1 (l : list Q) : da_wf (DA true 1 l).
Proof. split; [cbn; lia|]. exists (zlen l). cbn. split; [apply zlen_nonneg|lia]. Qed.
Lemma one_group_refuted : ~ forall d prec c cI, da_alloc d = true -> da_wf d -> 1 <= da_nc d <= 4 -> findCommonTuples d prec (-1) = Ok (c, cI) -> NoDup c.
Proof.
  intros H. specialize (H q012 1%Q [0; 1; 2; 1] [0; 2; 4] eq_refl (wf1 _) ltac:(cbn; lia) eq_refl). apply NoDup_cons in H as [_ H]. apply NoDup_cons in H as [H _]. apply H. right. by left.
Qed.
Lemma one_group_limit_refuted : ~ forall d prec limit c cI, da_alloc d = true -> da_wf d -> 1 <= da_nc d <= 4 ->
  transitive_on (da_nt d) (fun i j => near (da_vals d) (da_nc d) i prec (da_vals d) j) -> findCommonTuples d prec limit = Ok (c, cI) -> NoDup c.
Proof.
  intros H. specialize (H q555 0%Q 2 [0; 2; 1; 2] [0; 2; 4] eq_refl (wf1 _) ltac:(cbn; lia)).
  assert (T : transitive_on (da_nt q555) (fun i j => near (da_vals q555) (da_nc q555) i 0 (da_vals q555) j)).
  { change (da_nt q555) with 3. intros i j k Hi Hj Hk _ _ c Hc. change (da_nc q555) with 1 in *. replace c with 0 by lia. assert (E : forall i, 0 <= i < 3 -> at_ (da_vals q555) 1 i 0 = 5%Q).
    { intros x Hx. assert (x = 0 \/ x = 1 \/ x = 2) as [->|[->| ->]] by lia; done. }
    rewrite !E by done. vm_compute. discriminate. }
  specialize (H T eq_refl). apply NoDup_cons in H as [_ H]. apply NoDup_cons in H as [H _]. apply H. right. by left.
Qed.
(** The euclidian distance of the documentation of computeTupleIdsNearTuples: (0,0) and (1,1) are at 1 in the infinite norm, at more than 1 in the euclidian one. *)
Definition q00 : da Q := DA true 2 [0%Q; 0%Q].
Definition q11 : da Q := DA true 2 [1%Q; 1%Q].
Lemma wf2 (a b : Q) : da_wf (DA true 2 [a; b]).
Proof. split; [cbn; lia|]. exists 1. done. Qed.
Lemma euclidian_refuted : ~ forall d other eps c cI, da_alloc d = true -> da_alloc other = true -> da_wf d -> da_wf other -> da_nc d = da_nc other -> 1 <= da_nc d <= 3 -> (0 <= eps)%Q -> da_nt other = 1 ->
  computeTupleIdsNearTuples d other eps = Ok (c, cI) -> forall e, e ∈ c -> (sqdist (da_vals d) (da_nc d) e (da_vals other) 0 <= eps * eps)%Q.
Proof.
  intros H. specialize (H q00 q11 1%Q [0] [0; 1] eq_refl eq_refl (wf2 _ _) (wf2 _ _) eq_refl ltac:(cbn; lia) ltac:(discriminate) eq_refl eq_refl 0 ltac:(by left)). revert H. vm_compute. intros H. apply H. reflexivity.
Qed.
(** A rational function above the square root. *)
Definition above (x : Q) : Q := if Qle_bool x 1 then 1%Q else x.
Lemma above_ok : is_root above.
Proof.
  intros x Hx. unfold above. destruct (Qle_bool x 1) eqn:E; [apply Qle_bool_iff in E; split; lra|]. assert (1 < x)%Q by (apply Qnot_le_lt; rewrite <- Qle_bool_iff, E; done). split; [lra|].
  setoid_replace x with (1 * x)%Q at 1 by ring. apply Qmult_le_compat_r; lra.
Qed.
Definition cloud : list Q := (fun i => inject_Z (i * i mod 31)) <$> seqZ 0 40.
Definition qcloud : da Q := DA true 2 cloud.
Lemma wf_cloud : da_wf qcloud.
Proof. split; [cbn; lia|]. exists 20. vm_compute. split; [discriminate|done]. Qed.
Lemma components_refuted : ~ forall fuel root cbrt this other, da_wf this -> da_wf other -> da_alloc this = true -> da_alloc other = true -> da_nc this = da_nc other -> ~ (1 <= da_nc this <= 3) ->
  findClosestTupleId fuel root cbrt this other = Throw.
Proof. intros H. specialize (H 0%nat above above (DA true 4 []) (DA true 4 [])). rewrite (closest_overflow 0 above above (DA true 4 []) (DA true 4 [])) in H by done. discriminate H; try done; try (split; [done|by exists 0]); cbn; lia. Qed.
Lemma empty_refuted : ~ forall root cbrt this other, is_root root -> da_alloc this = true -> da_alloc other = true -> da_wf this -> da_wf other -> da_nc this = da_nc other -> 1 <= da_nc this <= 3 ->
  exists fuel, findClosestTupleId fuel root cbrt this other <> Fuel.
Proof. intros H. destruct (H above above (DA true 1 []) (DA true 1 [0%Q]) above_ok eq_refl eq_refl (wf1 _) (wf1 _) eq_refl ltac:(cbn; lia)) as [fuel E]. apply E. apply closest_never; first [exact above_ok|apply wf1|done|cbn; lia]. Qed.
