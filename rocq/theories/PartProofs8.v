From stdpp Require Import relations.
From Coq Require Import ZifyBool ZifyNat.
From Verif Require Import Base DataArray ArrLib StdModel StdProofs RenumSpec RenumProofs SearchSpec SearchProofs IndexSpec FillLib IndexProofs2 IndexProofs3 IndexProofs4 IndexProofs5 PartSpec PartModel PartProofs PartProofs2 PartProofs3 PartProofs4 PartProofs5 PartProofs6 PartProofs7.

Lemma partition_ok groups n : 0 <= n <= 2147483647 -> let gs := omap id groups in
  (forall g v, g ∈ gs -> v ∈ da_vals g -> 0 <= v < n) ->
  exists fam fids, MakePartition groups n = Ok (Some <$> fam, fids) /\ zlen fam = n /\
    (forall i j f f', fam @ i = Some f -> fam @ j = Some f' -> f = f' <-> forall g, g ∈ gs -> i ∈ da_vals g <-> j ∈ da_vals g) /\
    (exists K, 0 <= K /\ forall f, f ∈ fam <-> 1 <= f < 1 + K) /\ ordered_by_first fam /\ zlen fids = zlen gs /\
    forall k g, gs @ k = Some g -> exists l, fids @ k = Some l /\ enumerates (fun f => exists e, e ∈ da_vals g /\ fam @ e = Some f) l /\
      forall e, e ∈ da_vals g <-> exists f, fam @ e = Some f /\ f ∈ l.
Proof.
  intros Hn gs Hin. pose proof (partition_wp groups n Hn) as H. cbv zeta in H. fold gs in H. destruct (MakePartition groups n) as [[ret fids]| | |]; simpl in H; try done.
  - destruct H as (_ & fam & -> & H). exists fam, fids. split; [done|]. exact H.
  - exfalso. destruct H as (g & Hg & v & Hv & Ho). specialize (Hin g v Hg Hv). lia.
Qed.
Lemma partition_throw groups n : 0 <= n <= 2147483647 ->
  MakePartition groups n = Throw <-> exists g, Some g ∈ groups /\ out_of_range n (da_vals g).
Proof.
  intros Hn. pose proof (partition_wp groups n Hn) as H. cbv zeta in H.
  assert (He : forall g, g ∈ omap id groups <-> Some g ∈ groups).
  { intros g. rewrite elem_of_list_omap. unfold id. split; [intros (x & Hx & ->); done|intros Hx; exists (Some g); done]. }
  destruct (MakePartition groups n) as [[ret fids]| | |]; simpl in H; try done.
  - split; [done|]. intros (g & Hg & v & Hv & Ho). destruct H as (Hin & _). specialize (Hin g v (proj2 (He g) Hg) Hv). lia.
  - split; [|done]. intros _. destruct H as (g & Hg & Ho). exists g. rewrite <- He. done.
Qed.
Lemma partition_overflow : exists groups, forall n, 2147483647 < n -> MakePartition groups n = UB.
Proof.
  exists []. intros n Hn. unfold MakePartition. cbn [omap list_omap]. rewrite alloc1 by lia. cbn [bind]. 
  replace (2147483647 <? n) with true by lia. done.
Qed.

Lemma skyline_of (ps : list (list Z)) : skyline ps (concat ps) (psums (zlen <$> ps)).
Proof. apply skyline_psums. Qed.
Lemma o2n_unsorted : exists n ps arr arrI r K v, NoDup (concat ps) /\ skyline ps arr arrI /\
  (forall x, x ∈ concat ps -> 0 <= x < n) /\ ConvertIndexArrayToO2N n arr arrI = Ok (Some <$> r, K) /\ 0 <= v < K /\ v ∉ r.
Proof.
  exists 4, [[3; 1]], [3; 1], [0; 2], [0; 3; 2; 3], 4, 1. split; [apply (bool_decide_unpack _); vm_compute; done|]. split; [apply (skyline_of [[3; 1]])|].
  split; [intros x; simpl; rewrite !elem_of_cons, elem_of_nil; lia|]. split; [vm_compute; done|]. split; [lia|]. rewrite !elem_of_cons, elem_of_nil. lia.
Qed.
Lemma o2n_bad_first : exists n ps arr arrI, NoDup (concat ps) /\ (forall p, p ∈ ps -> p <> []) /\
  skyline ps arr arrI /\ ConvertIndexArrayToO2N n arr arrI = UB.
Proof.
  exists 3, [[7; 1]], [7; 1], [0; 2]. split; [apply (bool_decide_unpack _); vm_compute; done|]. split; [intros p ->%elem_of_list_singleton; done|].
  split; [apply (skyline_of [[7; 1]])|]. vm_compute. done.
Qed.
Lemma o2n_empty_pack : exists n ps arr arrI, NoDup (concat ps) /\ (forall x, x ∈ concat ps -> 0 <= x < n) /\
  skyline ps arr arrI /\ ConvertIndexArrayToO2N n arr arrI = UB.
Proof.
  exists 2, [[0; 1]; []], [0; 1], [0; 2; 2]. split; [apply (bool_decide_unpack _); vm_compute; done|].
  split; [intros x; simpl; rewrite !elem_of_cons, elem_of_nil; lia|]. split; [apply (skyline_of [[0; 1]; []])|]. vm_compute. done.
Qed.

Lemma pairs_groups d : da_alloc d = true -> da_wf d -> da_nc d = 2 -> exists ps arr idx,
  fromListOfPairsToIndexArray d = Ok (Some <$> arr, Some <$> idx) /\ skyline ps arr idx /\
  (forall p, p ∈ ps -> p <> [] /\ increasing p /\ forall a b, a ∈ p -> b ∈ p -> a ∈ da_vals d /\ linked (da_vals d) a b) /\
  (forall a b, paired (da_vals d) a b -> exists p, p ∈ ps /\ a ∈ p /\ b ∈ p) /\
  ((forall p q a, p ∈ ps -> q ∈ ps -> a ∈ p -> a ∈ q -> p = q) ->
   forall p a b, p ∈ ps -> a ∈ p -> b ∈ p <-> linked (da_vals d) a b).
Proof.
  intros Ha Hwf Hc. destruct (pairs_ok d Ha Hwf Hc) as (ps & arr & idx & H1 & H2 & H3 & H4). exists ps, arr, idx. split; [done|]. split; [done|]. split; [done|]. split; [done|].
  intros Hd. apply pairs_components; [|done..]. intros p Hp a b Hpa Hpb. apply (H3 p Hp); done.
Qed.
Lemma pairs_overlap : exists d ps arr idx p q a b, da_alloc d = true /\ da_wf d /\ da_nc d = 2 /\
  fromListOfPairsToIndexArray d = Ok (Some <$> arr, Some <$> idx) /\ skyline ps arr idx /\
  p ∈ ps /\ q ∈ ps /\ p <> q /\ a ∈ p /\ a ∈ q /\ b ∈ q /\ b ∉ p /\ linked (da_vals d) a b.
Proof.
  exists (DA true 2 [0; 5; 1; 6; 2; 5; 2; 6]), [[0; 2; 5; 6]; [1; 6]], [0; 2; 5; 6; 1; 6], [0; 4; 6], [0; 2; 5; 6], [1; 6], 6, 1.
  split; [done|]. split; [split; [done|]; exists 4; split; done|]. split; [done|]. split; [vm_compute; done|]. split; [apply (skyline_of [[0; 2; 5; 6]; [1; 6]])|].
  rewrite !elem_of_cons, !elem_of_nil. split; [left; done|]. split; [right; left; done|]. split; [done|]. split; [tauto|]. split; [tauto|]. split; [tauto|]. split; [lia|].
  apply linked_once. exists 1. right. done.
Qed.
Lemma trail_missed : exists d c, da_alloc d = true /\ da_wf d /\ da_nc d = 2 /\ consecutive c /\
  (exists ps l, da_vals d = flat ps /\ l ≡ₚ ps /\ Forall2 same_pair c l) /\ sortToHaveConsecutivePairs d = Throw.
Proof.
  exists (DA true 2 [1; 2; 2; 3; 3; 1; 3; 4]), [(3, 1); (1, 2); (2, 3); (3, 4)]. split; [done|]. split; [split; [done|]; exists 4; split; done|]. split; [done|]. split.
  { apply (walk_consecutive 3 _ 4). simpl. done. }
  split; [|vm_compute; done]. exists [(1, 2); (2, 3); (3, 1); (3, 4)], [(3, 1); (1, 2); (2, 3); (3, 4)]. split; [done|]. split.
    change ([(3, 1)] ++ [(1, 2); (2, 3)] ++ [(3, 4)] ≡ₚ [(1, 2); (2, 3)] ++ [(3, 1)] ++ [(3, 4)]). apply Permutation_app_swap_app.
  - repeat constructor.
Qed.
