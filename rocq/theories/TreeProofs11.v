From Coq Require Import QArith Qabs Lqa ZifyBool ZifyNat.
From Verif Require Import Base DataArray ArrLib TreeModel TreeModel2 TreeSpec TreeProofs TreeProofs2 TreeProofs4 TreeProofs9 TreeProofs10.
Local Open Scope Z_scope.

(** * distanceToTuple *)
Lemma distance_ok root d tuple : da_alloc d = true -> da_wf d -> 1 <= da_nc d -> da_nc d = zlen tuple -> 1 <= da_nt d ->
  (forall i, 0 <= i < da_nt d -> (sqdist (da_vals d) (da_nc d) i tuple 0 < DBL_MAX)%Q) ->
  exists i, distanceToTuple root d tuple = Ok (root (sqdist (da_vals d) (da_nc d) i tuple 0), i) /\ 0 <= i < da_nt d /\
    (forall i', 0 <= i' < da_nt d -> (sqdist (da_vals d) (da_nc d) i tuple 0 <= sqdist (da_vals d) (da_nc d) i' tuple 0)%Q) /\
    (forall i', 0 <= i' < i -> (sqdist (da_vals d) (da_nc d) i tuple 0 < sqdist (da_vals d) (da_nc d) i' tuple 0)%Q).
Proof.
  intros Ha W H1 Hc Hn Hbig. pose proof (wf_points d W H1) as HP. unfold distanceToTuple, checkAllocated. rewrite Ha, <- Hc, Z.eqb_refl. cbn [negb ifthrow]. replace (da_nt d =? 0) with false by lia. cbn [ifthrow].
  set (sq := fun i => sqdist (da_vals d) (da_nc d) i tuple 0) in *. cbv beta in Hbig.
  match goal with |- context[forZ 0 (da_nt d) ?X _] => set (body := X) end.
  assert (W2 : wp (forZ 0 (da_nt d) body (DBL_MAX, -1)) (fun r => exists i, r = (sq i, i) /\ 0 <= i < da_nt d /\ (forall i', 0 <= i' < da_nt d -> (sq i <= sq i')%Q) /\ (forall i', 0 <= i' < i -> (sq i < sq i')%Q)) False).
  { apply (wp_forZ (fun j r => (j = 0 -> r = (DBL_MAX, -1)) /\ (1 <= j -> exists i, r = (sq i, i) /\ 0 <= i < j /\ (forall i', 0 <= i' < j -> (sq i <= sq i')%Q) /\ (forall i', 0 <= i' < i -> (sq i < sq i')%Q)))).
    - lia.
    - split; [done|lia].
    - intros j [r0 id] Hj [I0 I1]. unfold body.
      assert (E : forZ 0 (da_nc d) (fun j0 val => let* w := rd (da_vals d) (j * da_nc d + j0) in let* x := rd tuple j0 in Ok (val + (w - x) * (w - x))%Q) 0%Q = Ok (sq j)).
      { unfold forZ, sq, sqdist. rewrite Z.sub_0_r. apply foldM_foldl. intros k s Hk%elem_of_seqZ. pose proof (coord_ok _ _ _ j k HP ltac:(lia) ltac:(lia)) as C. unfold coord in C. rewrite C. cbn [bind].
        rewrite (pt_ok tuple (da_nc d)); [done|unfold is_point; lia|lia]. }
      rewrite E. cbn [bind wp]. split; [lia|]. intros _. destruct (decide (j = 0)) as [->|].
      + specialize (I0 eq_refl). injection I0 as -> ->. assert (Hq : Qle_bool DBL_MAX (sq 0) = false). { apply not_true_is_false. rewrite Qle_bool_iff. specialize (Hbig 0 ltac:(lia)). unfold sq. lra. } rewrite Hq.
        exists 0. split; [done|]. split; [lia|]. split; [|lia]. intros i' Hi'. replace i' with 0 by lia. lra.
      + destruct (I1 ltac:(lia)) as (i & [= -> ->] & Hi & M1 & M2). destruct (Qle_bool (sq i) (sq j)) eqn:El.
        * apply Qle_bool_iff in El. exists i. split; [done|]. split; [lia|]. split; [|done]. intros i' Hi'. destruct (decide (i' = j)) as [->|]; [done|]. apply M1. lia.
        * assert (Hlt : (sq j < sq i)%Q) by (apply Qnot_le_lt; rewrite <- Qle_bool_iff, El; done). exists j. split; [done|]. split; [lia|]. split.
          -- intros i' Hi'. destruct (decide (i' = j)) as [->|]; [lra|]. specialize (M1 i' ltac:(lia)). lra.
          -- intros i' Hi'. specialize (M1 i' ltac:(lia)). lra.
    - intros r [_ H]. apply H. lia. }
  destruct (forZ _ _ _ _) as [[r0 id]| | |]; cbn [wp] in W2; try done. destruct W2 as (i & [= -> ->] & H). exists i. done.
Qed.
Lemma distance_throw root d tuple : da_wf d -> (forall i, 0 <= i < da_nt d -> (sqdist (da_vals d) (da_nc d) i tuple 0 < DBL_MAX)%Q) -> 1 <= da_nc d ->
  distanceToTuple root d tuple = Throw <-> ~ (da_alloc d = true /\ da_nc d = zlen tuple /\ da_nt d <> 0).
Proof.
  intros W Hbig H1. pose proof (wf_points d W H1) as (_ & H0 & _). split.
  - intros E (Ha & Hc & Hn). destruct (distance_ok root d tuple) as (i & E' & _); try done; [lia|]. congruence.
  - intros H. unfold distanceToTuple, checkAllocated. destruct (da_alloc d); [|done]. destruct (da_nc d =? zlen tuple) eqn:Ec; cbn [negb ifthrow]; [|done]. destruct (da_nt d =? 0) eqn:En; cbn [ifthrow]; [done|].
    exfalso. apply H. split; [done|]. split; lia.
Qed.

(** * What findClosestTupleId does otherwise *)
Lemma closest_throws fuel root cbrt this other : ~ (da_alloc this = true /\ da_alloc other = true /\ da_nc this = da_nc other) -> findClosestTupleId fuel root cbrt this other = Throw.
Proof.
  intros H. unfold findClosestTupleId, checkAllocated. destruct (da_alloc this); [|done]. destruct (da_alloc other); [|done]. destruct (da_nc this =? da_nc other) eqn:Ec; cbn [negb ifthrow]; [|done].
  exfalso. apply H. split; [done|]. split; [done|lia].
Qed.
Lemma closest_overflow fuel root cbrt this other : da_alloc this = true -> da_alloc other = true -> da_nc this = da_nc other -> 4 <= da_nc this -> findClosestTupleId fuel root cbrt this other = UB.
Proof.
  intros Ha Hb Hc H4. unfold findClosestTupleId, checkAllocated. rewrite Ha, Hb, <- Hc, Z.eqb_refl. cbn [negb ifthrow]. unfold getMinMaxPerComponent, checkAllocated. rewrite Ha.
  unfold forZ at 1. rewrite Z.sub_0_r. replace (da_nc this) with (4 + (da_nc this - 4)) at 1 by lia. rewrite seqZ_app by lia. rewrite foldM_app. reflexivity.
Qed.
Section Never.
Context (root : Q -> Q) (pts : list Q) (dim : Z) (t : tree) (s : Q) (p : list Q).
Hypothesis (Hroot : is_root root) (HP : points pts dim 0) (Hp : is_point p dim) (Hs : (0 <= s)%Q) (HG : good (at_ pts dim) (at_ pts dim) dim 0 s t) (He : elts t = []).
Lemma seek_never fuel : forall d, (0 < d)%Q -> seek fuel root pts dim t p d = Fuel.
Proof.
  induction fuel as [|f IH]; intros d Hd; [done|]. cbn [seek]. destruct (closest_ok root pts dim 0 p Hroot HP Hp t s Hs HG d (Some (-1)) ltac:(lra)) as (r & E & Ho). rewrite E. cbn [bind].
  rewrite He in Ho. destruct Ho as [(e & H & _)|(el & -> & _)]; [by apply elem_of_nil in H|]. replace (Qeq_bool DBL_MAX DBL_MAX) with true by (symmetry; apply Qeq_bool_iff; reflexivity). cbn [negb]. apply IH. lra.
Qed.
End Never.
Lemma closest_never fuel root cbrt this other : is_root root -> da_alloc this = true -> da_alloc other = true -> da_wf this -> da_wf other -> da_nc this = da_nc other -> 1 <= da_nc this <= 3 -> da_nt this = 0 -> 1 <= da_nt other ->
  findClosestTupleId fuel root cbrt this other = Fuel.
Proof.
  intros Hroot Ha Hb Wt Wo Hc H3 Hn Hm. destruct (closest_tree root cbrt this other Ha Hb Wt Hc H3) as (t & s & dist & Hs & Gt & Pt & E). rewrite E. unfold FindClosestTupleIdAlg. rewrite forZ_step by lia.
  pose proof (wf_points this Wt ltac:(lia)) as HP. pose proof (wf_points other Wo ltac:(lia)) as HO. rewrite <- Hc in HO. rewrite Hn in *. apply Permutation_nil_r in Pt.
  rewrite (seek_never root _ _ t s); try done; [by apply (drop_pt _ _ (da_nt other)); [|lia]|].
  unfold qmax. destruct (ltb dist DBL_EPSILON) eqn:El; [reflexivity|]. apply ltb_false in El. eapply Qlt_le_trans; [|exact El]. reflexivity.
Qed.
