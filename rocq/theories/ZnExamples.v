(** Meshes and arrays for the zones and the neighbours of nodes. *)
From stdpp Require Import relations.
From Coq Require Import QArith ZifyBool ZifyNat.
From Verif Require Import Base DataArray ArrLib FillLib IndexSpec RenumSpec PartSpec CellTable CellModel CellSpec IndexProofs3 IndexProofs4 UmModel UmSpec UcSpec UcProofs6 DsModel DsSpec DsProofs4 DsProofs6 ZnModel ZnSpec ZnProofs ZnProofs2 ZnProofs3 ZnProofs4 ZnProofs5.
Local Open Scope Z_scope.

(** The zones of a mesh said plainly. *)
Lemma mesh_partition m cells fss nb : stores m cells -> has_nodes m nb -> Forall2 (sons MinusOneSonsGenerator) cells fss -> 1 <= um_dim m <= 3 ->
  (forall f, f ∈ concat fss -> good_son (um_dim m - 1) nb f) ->
  exists zs, partitionBySpreadZone m = Ok zs /\ Permutation (concat zs) (seqZ 0 (zlen cells)) /\
    forall z i, z ∈ zs -> i ∈ z -> ascending z /\ forall j, j ∈ z <-> rtc (adjacent fss) i j.
Proof.
  intros H1 H2 H3 H4 H5. destruct (mesh_zones_ok m cells fss nb H1 H2 H3 H4 H5) as (zs & E & HZ). exists zs. split; [done|]. split.
  - eapply zones_all; [done|]. intros i j _ Ha. apply adjacent_range in Ha. unfold zlen in *. rewrite (Forall2_length _ _ _ H3). lia.
  - intros z i Hz Hi. apply elem_of_zlook in Hz as [t Hz]. split; [by destruct (proj2 HZ t z Hz) as (s & _ & _ & _ & Ha & _)|]. intros j. eapply zones_sym; [done|apply adjacent_sym|done|done].
Qed.
Lemma partition_sym n arr arrI : graph n arr arrI -> 0 <= n -> (forall i j, link arr arrI i j -> link arr arrI j i) ->
  exists zs, PartitionBySpreadZone (vec arr) (vec arrI) = Ok zs /\ Permutation (concat zs) (seqZ 0 n) /\ forall z i, z ∈ zs -> i ∈ z -> ascending z /\ forall j, j ∈ z <-> rtc (link arr arrI) i j.
Proof.
  intros HG Hn HS. destruct (partition_ok n arr arrI HG Hn) as (zs & E & HZ). exists zs. split; [done|]. split.
  - eapply zones_all; [done|]. intros i j Hi Hl. by eapply link_range.
  - intros z i Hz Hi. apply elem_of_zlook in Hz as [t Hz]. split; [by destruct (proj2 HZ t z Hz) as (s & _ & _ & _ & Ha & _)|]. intros j. eapply zones_sym; [done|exact HS|done|done].
Qed.
Lemma partition_throw (arr arrI : da Z) : da_alloc arr = false \/ da_alloc arrI = false \/ da_nc arr <> 1 \/ da_nc arrI <> 1 \/ da_nt arrI < 1 -> PartitionBySpreadZone arr arrI = Throw.
Proof.
  intros H. unfold PartitionBySpreadZone, checkAllocated. destruct (da_alloc arr) eqn:Ea; [|done]. destruct (da_alloc arrI) eqn:Eb; [|done]. unfold ifthrow. replace (_ || _) with true by lia. done.
Qed.
(** All the cells are reached from the first one exactly when the result has all of them. *)
Lemma gradually_ok n arr arrI : graph n arr arrI -> 0 < n ->
  exists ids, ComputeSpreadZoneGradually (vec arr) (vec arrI) = Ok ids /\ ascending ids /\ (forall j, j ∈ ids <-> rtc (link arr arrI) 0 j) /\ (zlen ids = n <-> forall j, 0 <= j < n -> rtc (link arr arrI) 0 j).
Proof.
  intros HG Hn. destruct (fromSeed_ok n arr arrI [0] (-1) HG ltac:(lia)) as (ids & nb & E & Ha & Hi & _). { intros s Hs. apply elem_of_list_singleton in Hs as ->. lia. }
  assert (Hm : forall j, j ∈ ids <-> rtc (link arr arrI) 0 j).
  { intros j. rewrite Hi. split.
    - intros (k & Hk & _). assert (exists s, s ∈ [0] /\ rtc (link arr arrI) s j) as (s & Hs & Hr) by (apply leads_rtc; by exists k). apply elem_of_list_singleton in Hs as ->. done.
    - intros Hr. assert (exists k, leads (link arr arrI) [0] k j) as [k Hk] by (apply leads_rtc; exists 0; split; [by apply elem_of_list_singleton|done]). exists k. split; [done|by left]. }
  exists ids. unfold ComputeSpreadZoneGradually. rewrite E. cbn [bind]. split; [done|]. split; [done|]. split; [done|].
  assert (Hr : forall j, j ∈ ids -> 0 <= j < n). { intros j Hj. apply Hm in Hj. assert (G : forall x y, rtc (link arr arrI) x y -> 0 <= x < n -> 0 <= y < n). { intros x y H. induction H as [|x y z HR _ IH]; [done|]. intros Hx. apply IH. by eapply link_range. } apply (G 0 j Hj). lia. }
  assert (Hnd : NoDup ids). { clear -Ha. induction ids as [|x z IH]; [constructor|]. destruct Ha as [H1 H2]. constructor; [|by apply IH]. intros Hx. apply H1 in Hx. lia. }
  assert (Hsub : ids ⊆+ seqZ 0 n). { apply NoDup_submseteq; [done|]. intros x Hx. apply elem_of_seqZ. specialize (Hr x Hx). lia. }
  assert (Ls : zlen (seqZ 0 n) = n) by (rewrite zlen_seqZ; lia). split.
  - intros Hl j Hj. apply Hm. assert (Hp : ids ≡ₚ seqZ 0 n) by (apply submseteq_Permutation_length_le; [unfold zlen in *; lia|done]). rewrite Hp. apply elem_of_seqZ. lia.
  - intros Hall. assert (Hp : ids ≡ₚ seqZ 0 n). { apply NoDup_Permutation; [done|apply NoDup_seqZ|]. intros x. rewrite Hm, elem_of_seqZ. split; [|intros; apply Hall; lia]. intros Hx. apply Hm, Hr in Hx. lia. }
    rewrite <- Ls. unfold zlen. by rewrite Hp.
Qed.

Definition ga : list Z := [1; 0; 2; 1; 4; 3].
Definition gi : list Z := [0; 1; 3; 4; 5; 6].
Definition gss : list (list Z) := [[1]; [0; 2]; [1]; [4]; [3]].
Lemma g_sky : skyline gss ga gi.
Proof. exact (skyline_psums gss). Qed.
Lemma g_graph : graph 5 ga gi.
Proof.
  apply (sky_graph gss); [exact g_sky|done|]. intros ns j Hns Hj. unfold gss in Hns. rewrite !elem_of_cons, elem_of_nil in Hns.
  destruct Hns as [->|[->|[->|[->|[->|[]]]]]]; rewrite ?elem_of_cons, ?elem_of_nil in Hj; lia.
Qed.
Lemma g_sym i j : link ga gi i j -> link ga gi j i.
Proof.
  rewrite !(sky_link gss _ _ _ _ g_sky). intros (ns & Hns & Hj). pose proof (zlook_Some_lt _ _ _ Hns) as Hr. change (zlen gss) with 5 in Hr.
  assert (i = 0 \/ i = 1 \/ i = 2 \/ i = 3 \/ i = 4) as [->|[->|[->|[->| ->]]]] by lia; injection Hns as <-; rewrite !elem_of_cons, elem_of_nil in Hj;
    repeat (destruct Hj as [->|Hj]; [eexists; split; [reflexivity|]; rewrite !elem_of_cons; tauto|]); done.
Qed.
(** A negative value is not ignored: the mark before the first one is read. *)
Lemma negative_refuted : exists arr arrI, zlen arrI = 3 /\ (forall i, 0 <= i < 2 -> exists p, pack arr arrI i p /\ forall j, j ∈ p -> j < 2) /\ ComputeSpreadZoneGradually (vec arr) (vec arrI) = UB.
Proof.
  exists [1; -1; 0], [0; 2; 3]. split; [done|]. split; [|vm_compute; reflexivity].
  intros i Hi. assert (i = 0 \/ i = 1) as [->| ->] by lia; [exists [1; -1]|exists [0]]; (split; [apply (sky_pack [[1; -1]; [0]]); [exact (skyline_psums [[1; -1]; [0]])|done]|]); intros j Hj; rewrite !elem_of_cons, elem_of_nil in Hj; lia.
Qed.

Definition island : list cell := plane ++ [(NORM_TRI3, [6; 7; 8])].
Lemma island_proper : Forall (proper 2 9) island.
Proof. repeat apply Forall_cons_2; [| | | |constructor]; (eexists; split; [reflexivity|]; split; [done|]; split; [done|]; split; [done|]; cbn; split; [repeat constructor; cbn; rewrite ?elem_of_cons, ?elem_of_nil; lia|]; split; [small|]; split; [intros E|intros E]; try done). Qed.

Lemma sons_fun g (l : list cell) fss fss' : Forall2 (sons g) l fss -> Forall2 (sons g) l fss' -> fss = fss'.
Proof.
  intros H. revert fss'. induction H as [|c fs l' fss Hc _ IH]; intros ls Hp; inversion Hp as [|c' fs' l'' ls' Hc' Hls]; subst; [done|]. f_equal; [|by apply IH].
  destruct Hc as (k & Hk & Hn & Hf), Hc' as (k' & Hk' & Hn' & Hf'). assert (k' = k) as -> by congruence. assert (Hl : zlen fs = zlen fs') by congruence. apply zlook_ext_lt; [done|]. intros i Hi.
  destruct (zlook_lt fs i Hi) as [x Hx]. destruct (zlook_lt fs' i ltac:(lia)) as [y Hy]. rewrite Hx, Hy. destruct (Hf i x Hx) as [E1 _], (Hf' i y Hy) as [E2 _]. congruence.
Qed.
Lemma plane_linear f : f ∈ concat plane_edges -> good_son 1 6 f /\ zlen f.2 = 2.
Proof.
  destruct (all_sons 2 6 plane ltac:(lia) plane_proper) as (fss & Hs & Hg). rewrite (sons_fun _ _ _ _ Hs plane_sons) in Hg.
  intros Hf. split; [by apply Hg|]. clear Hg Hs. unfold plane_edges in Hf. cbn [concat app] in Hf. repeat (apply elem_of_cons in Hf as [->|Hf]; [done|]). by apply elem_of_nil in Hf.
Qed.
Definition tetra_edges : list (list cell) :=
  [[(NORM_SEG2, [0; 1]); (NORM_SEG2, [1; 2]); (NORM_SEG2, [2; 0]); (NORM_SEG2, [0; 3]); (NORM_SEG2, [1; 3]); (NORM_SEG2, [2; 3])];
   [(NORM_SEG2, [1; 3]); (NORM_SEG2, [3; 2]); (NORM_SEG2, [2; 1]); (NORM_SEG2, [1; 4]); (NORM_SEG2, [3; 4]); (NORM_SEG2, [2; 4])]].
Lemma tetra_sons : Forall2 (sons MinusTwoSonsGenerator) tetras tetra_edges.
Proof. repeat constructor; (eexists; split; [reflexivity|]; split; [done|]; intros i f Hf; pose proof (zlook_Some_lt _ _ _ Hf) as Hr; cbn in Hr; unfold zlen in Hr; cbn in Hr; assert (i = 0 \/ i = 1 \/ i = 2 \/ i = 3 \/ i = 4 \/ i = 5) as [->|[->|[->|[->|[->| ->]]]]] by lia; vm_compute in Hf; try done; injection Hf as <-; done). Qed.
Lemma tetra_linear f : f ∈ concat tetra_edges -> good_son 1 5 f /\ zlen f.2 = 2.
Proof.
  destruct (all_edges 5 tetras tetras_proper) as (fss & Hs & Hg). { intros c Hc. unfold tetras in Hc. rewrite !elem_of_cons, elem_of_nil in Hc. by destruct Hc as [->|[->|[]]]. }
  rewrite (sons_fun _ _ _ _ Hs tetra_sons) in Hg.
  intros Hf. split; [by apply Hg|]. clear Hg Hs. unfold tetra_edges in Hf. cbn [concat app] in Hf. repeat (apply elem_of_cons in Hf as [->|Hf]; [done|]). by apply elem_of_nil in Hf.
Qed.

Definition curved : list cell := [(NORM_TRI6, [0; 1; 2; 3; 4; 5])].
Definition curved_edges : list (list cell) := [[(NORM_SEG3, [0; 1; 3]); (NORM_SEG3, [1; 2; 4]); (NORM_SEG3, [2; 0; 5])]].
Lemma curved_proper : Forall (proper 2 6) curved.
Proof. repeat apply Forall_cons_2; [|constructor]; (eexists; split; [reflexivity|]; split; [done|]; split; [done|]; split; [done|]; cbn; split; [repeat constructor; cbn; rewrite ?elem_of_cons, ?elem_of_nil; lia|]; split; [small|]; split; [intros E|intros E]; try done). Qed.
Lemma curved_sons : Forall2 (sons MinusOneSonsGenerator) curved curved_edges.
Proof. repeat constructor; (eexists; split; [reflexivity|]; split; [done|]; intros i f Hf; pose proof (zlook_Some_lt _ _ _ Hf) as Hr; cbn in Hr; unfold zlen in Hr; cbn in Hr; assert (i = 0 \/ i = 1 \/ i = 2) as [->|[->| ->]] by lia; vm_compute in Hf; try done; injection Hf as <-; done). Qed.
(** On a quadratic mesh nodes without a common edge are given as neighbours. *)
Lemma quadratic_refuted : exists m cells fss out outI i j, stores m cells /\ has_nodes m 6 /\ um_dim m = 2 /\ Forall (proper 2 6) cells /\ Forall2 (sons MinusOneSonsGenerator) cells fss /\
  computeNeighborsOfNodes m = Ok (out, outI) /\ link out outI i j /\ forall f, f ∈ concat fss -> i ∈ f.2 -> j ∉ f.2.
Proof.
  destruct (mk_ok 2 6 curved ltac:(lia)) as (H1 & _ & H2).
  exists (mk 2 6 curved), curved, curved_edges, [1; 4; 0; 2; 1; 4; 0; 2; 4], [0; 2; 4; 6; 7; 8; 9], 5, 4.
  split; [done|]. split; [done|]. split; [done|]. split; [exact curved_proper|]. split; [exact curved_sons|]. split; [vm_compute; reflexivity|]. split.
  - exists [4]. split; [|by apply elem_of_list_singleton]. exists 8, 9. done.
  - intros f Hf. unfold curved_edges in Hf. cbn [concat app] in Hf. repeat (apply elem_of_cons in Hf as [->|Hf]; [cbn [snd]; rewrite !elem_of_cons, !elem_of_nil; lia|]). by apply elem_of_nil in Hf.
Qed.
