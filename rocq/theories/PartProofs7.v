From Coq Require Import ZifyBool ZifyNat.
From Verif Require Import Base DataArray ArrLib StdModel StdProofs RenumSpec RenumProofs SearchSpec SearchProofs PermProofs IndexSpec FillLib IndexProofs2 IndexProofs3 IndexProofs4 IndexProofs5 PartSpec PartModel PartProofs PartProofs2 PartProofs3 PartProofs4 PartProofs5 PartProofs6.

(** * sortEachPairToMakeALinkedList *)
Lemma set_len_NoDup (l : list Z) : NoDup l -> zlen (set_of l) = zlen l.
Proof.
  intros Hn. unfold zlen. f_equal. apply Permutation_length. apply NoDup_Permutation; [apply SS_NoDup, SS_set_of|done|].
  intros x. apply elem_of_set_of.
Qed.
Lemma set_len_ext (l l' : list Z) : (forall x, x ∈ l <-> x ∈ l') -> zlen (set_of l) = zlen (set_of l').
Proof.
  intros H. unfold zlen. f_equal. apply Permutation_length. apply NoDup_Permutation; [apply SS_NoDup, SS_set_of..|].
  intros x. rewrite !elem_of_set_of. apply H.
Qed.
Lemma set3 (l : list Z) a b c : a <> b -> a <> c -> b <> c -> (forall x, x ∈ l <-> x = a \/ x = b \/ x = c) -> zlen (set_of l) = 3.
Proof.
  intros H1 H2 H3 H. rewrite (set_len_ext l [a; b; c]), set_len_NoDup; [done| |].
  - repeat (apply NoDup_cons_2; [rewrite ?elem_of_cons, elem_of_nil; intuition congruence|]); apply NoDup_nil_2.
  - intros x. rewrite H, !elem_of_cons, elem_of_nil. tauto.
Qed.
Lemma set2 (l : list Z) a b : a <> b -> (forall x, x ∈ l <-> x = a \/ x = b) -> zlen (set_of l) = 2.
Proof.
  intros H1 H. rewrite (set_len_ext l [a; b]), set_len_NoDup; [done| |].
  - repeat (apply NoDup_cons_2; [rewrite ?elem_of_cons, elem_of_nil; intuition congruence|]); apply NoDup_nil_2.
  - intros x. rewrite H, !elem_of_cons, elem_of_nil. tauto.
Qed.
Lemma set4 c0 c1 c2 c3 : c0 <> c1 -> c2 <> c3 -> zlen (set_of [c0; c1; c2; c3]) = 3 <->
  (c0 = c2 /\ c1 <> c3) \/ (c0 = c3 /\ c1 <> c2) \/ (c1 = c2 /\ c0 <> c3) \/ (c1 = c3 /\ c0 <> c2).
Proof.
  intros H01 H23. 
  assert (He : forall x, x ∈ [c0; c1; c2; c3] <-> x = c0 \/ x = c1 \/ x = c2 \/ x = c3) by (intros x; rewrite !elem_of_cons, elem_of_nil; tauto).
  destruct (decide (c0 = c2)) as [E1|N1].
  { destruct (decide (c1 = c3)) as [E2|N2].
    - rewrite (set2 _ c0 c1) by (done || (intros x; rewrite He; intuition congruence)). split; [lia|]. intuition congruence.
    - rewrite (set3 _ c0 c1 c3) by (congruence || (intros x; rewrite He; intuition congruence)). intuition congruence. }
  destruct (decide (c0 = c3)) as [E1|N3].
  { destruct (decide (c1 = c2)) as [E2|N2].
    - rewrite (set2 _ c0 c1) by (done || (intros x; rewrite He; intuition congruence)). split; [lia|]. intuition congruence.
    - rewrite (set3 _ c0 c1 c2) by (congruence || (intros x; rewrite He; intuition congruence)). intuition congruence. }
  destruct (decide (c1 = c2)) as [E1|N4].
  { rewrite (set3 _ c0 c1 c3) by (congruence || (intros x; rewrite He; intuition congruence)). intuition congruence. }
  destruct (decide (c1 = c3)) as [E1|N5].
  { rewrite (set3 _ c0 c1 c2) by (congruence || (intros x; rewrite He; intuition congruence)). intuition congruence. }
  rewrite set_len_NoDup.
  - split; [intros ?; done|]. intuition congruence.
  - repeat (apply NoDup_cons_2; [rewrite ?elem_of_cons, elem_of_nil; intuition congruence|]); apply NoDup_nil_2.
Qed.
Lemma cnt4_first c0 c1 c2 c3 : c0 <> c1 -> c2 <> c3 -> cnt4 [c0; c1; c2; c3] c0 = 2 <-> c2 = c0 \/ c3 = c0.
Proof.
  intros H1 H2. unfold cnt4. rewrite !filter_cons, filter_nil.
  repeat (match goal with |- context[decide (?a = ?b)] => destruct (decide (a = b)) end); unfold zlen; simpl; split; try lia; intros; naive_solver.
Qed.

Lemma same_pair_cases p x y : same_pair p (x, y) <-> (p.1 = x /\ p.2 = y) \/ (p.1 = y /\ p.2 = x).
Proof. destruct p as [a b]. unfold same_pair. simpl. naive_solver. Qed.

(** a path is determined by its pairs *)
Lemma path_two l n xs ys : 2 <= n -> node_path l n xs -> node_path l n ys -> xs @ 0 = ys @ 0 /\ xs @ 1 = ys @ 1.
Proof.
  intros Hn (Lx & Hx & Dx) (Ly & Hy & Dy).
  destruct (Hx 0 ltac:(lia)) as (p & x0 & x1 & Hp & X0 & X1 & Sx & Nx). destruct (Hy 0 ltac:(lia)) as (p' & y0 & y1 & Hp' & Y0 & Y1 & Sy & Ny).
  destruct (Hx 1 ltac:(lia)) as (q & x1' & x2 & Hq & X1' & X2 & Sx2 & Nx2). destruct (Hy 1 ltac:(lia)) as (q' & y1' & y2 & Hq' & Y1' & Y2 & Sy2 & Ny2).
  change (0 + 1) with 1 in *. change (1 + 1) with 2 in *.
  assert (x1' = x1) by congruence. assert (y1' = y1) by congruence. subst x1' y1'.
  pose proof (Dx 0 x0 x2 X0 X2). pose proof (Dy 0 y0 y2 Y0 Y2).
  destruct Hp as [P1 P2], Hp' as [P1' P2'], Hq as [Q1 Q2], Hq' as [Q1' Q2']. rewrite !same_pair_cases in Sx, Sy, Sx2, Sy2.
  assert (p.1 = p'.1) by congruence. assert (p.2 = p'.2) by congruence. assert (q.1 = q'.1) by congruence. assert (q.2 = q'.2) by congruence.
  rewrite X0, X1, Y0, Y1. assert (x0 = y0 /\ x1 = y1) as [-> ->]; [|done]. lia.
Qed.
Lemma path_unique l n xs ys : 2 <= n -> node_path l n xs -> node_path l n ys -> xs = ys.
Proof.
  intros Hn Px Py. pose proof (path_two _ _ _ _ Hn Px Py) as [H0 H1]. destruct Px as (Lx & Hx & Dx), Py as (Ly & Hy & Dy).
  assert (Hall : forall i, 0 <= i -> i <= n -> xs @ i = ys @ i).
  { refine (natlike_ind _ _ _); [done|]. intros i Hi IH Hle. destruct (decide (i = 0)) as [->|]; [done|].
    destruct (Hx i ltac:(lia)) as (p & x & x' & Hp & X & X' & S & N). destruct (Hy i ltac:(lia)) as (p' & y & y' & Hp' & Y & Y' & S' & N').
    replace (Z.succ i) with (i + 1) by lia. rewrite X', Y'. rewrite (IH ltac:(lia)) in X. assert (x = y) as -> by congruence.
    destruct Hp as [P1 P2], Hp' as [P1' P2']. assert (p.1 = p'.1) by congruence. assert (p.2 = p'.2) by congruence. rewrite same_pair_cases in S, S'. f_equal. lia. }
  apply zlook_ext_lt; [lia|]. intros i Hi. apply Hall; lia.
Qed.
Lemma path_prefix l n m xs : 0 <= m <= n -> node_path l n xs -> node_path l m (take (Z.to_nat (m + 1)) xs).
Proof.
  intros Hm (L & H & D). split; [rewrite zlen_take; lia|]. split.
  - intros i Hi. destruct (H i ltac:(lia)) as (p & x & y & Hp & X & Y & S). exists p, x, y. rewrite !zlook_take by lia.
    done.
  - intros i x y X Y. pose proof (zlook_Some_lt _ _ _ Y) as HY. rewrite zlen_take in HY. rewrite zlook_take in X, Y by lia. apply (D i); done.
Qed.
Lemma path_intro2 l p q x y z : pair_at l 0 p -> pair_at l 1 q -> same_pair p (x, y) -> same_pair q (y, z) -> x <> y -> y <> z -> x <> z -> node_path l 2 [x; y; z].
Proof.
  intros Hp Hq Sp Sq H1 H2 H3. split; [done|]. split.
  - intros i Hi. assert (i = 0 \/ i = 1) as [->| ->] by lia; [exists p, x, y|exists q, y, z]; done.
  - intros i a b Ha Hb. pose proof (zlook_Some_lt _ _ _ Ha). pose proof (zlook_Some_lt _ _ _ Hb) as Hlt. change (zlen [x; y; z]) with 3 in *. assert (i = 0) as -> by lia.
    change (Some x = Some a) in Ha. change (Some z = Some b) in Hb. congruence.
Qed.
Lemma path_snoc l i xs w y z p : 1 <= i -> node_path l i xs -> xs @ (i - 1) = Some w -> xs @ i = Some y -> pair_at l i p -> same_pair p (y, z) -> y <> z -> w <> z ->
  node_path l (i + 1) (xs ++ [z]).
Proof.
  intros Hi (L & H & D) Hw Hy Hp Sp N1 N2. split; [rewrite zlen_app, L; done|]. assert (Hz : (xs ++ [z]) @ (i + 1) = Some z) by (rewrite <- L; apply zlook_snoc). split.
  - intros k Hk. destruct (decide (k = i)) as [->|].
    + exists p, y, z. rewrite zlook_app_l by lia. done.
    + destruct (H k ltac:(lia)) as (p' & a & b & Hp' & A & B & S). exists p', a, b. rewrite !zlook_app_l by lia. done.
  - intros k a b Ha Hb. pose proof (zlook_Some_lt _ _ _ Hb) as Hlt. pose proof (zlook_Some_lt _ _ _ Ha). rewrite zlen_app, L in Hlt. change (zlen [z]) with 1 in Hlt. destruct (decide (k = i - 1)) as [->|].
    + rewrite zlook_app_l in Ha by lia. replace (i - 1 + 2) with (i + 1) in Hb by lia. congruence.
    + rewrite zlook_app_l in Ha, Hb by lia. eauto.
Qed.

Section Linked.
  Context (l : list Z) (n : Z) (Hn : 2 <= n) (Hl : zlen l = 2 * n).
  Definition linkInv (i : Z) (v : list Z) : Prop :=
    1 <= i <= n /\ zlen v = 2 * n /\ (forall k, 2 * i <= k -> v @ k = l @ k) /\ (i = 1 -> v = l) /\
    (2 <= i -> exists xs, node_path l i xs /\ forall k, 0 <= k < i -> v @ (2 * k) = xs @ k /\ v @ (2 * k + 1) = xs @ (k + 1)).
  Definition linkThrow : Prop := forall ys, ~ node_path l n ys.

  Lemma two_nodes ys c0 c1 c2 c3 : node_path l n ys -> pair_at l 0 (c0, c1) -> pair_at l 1 (c2, c3) ->
    exists y0 y1 y2, ((c0 = y0 /\ c1 = y1) \/ (c0 = y1 /\ c1 = y0)) /\ ((c2 = y1 /\ c3 = y2) \/ (c2 = y2 /\ c3 = y1)) /\ y0 <> y1 /\ y1 <> y2 /\ y0 <> y2.
  Proof.
    intros (L & H & D) H0 H1. destruct (H 0 ltac:(lia)) as (p & x & y & Hp & X & Y & S & N). destruct (H 1 ltac:(lia)) as (q & y' & z & Hq & Y' & W & S' & N').
    change (0 + 1) with 1 in *. assert (y' = y) as -> by congruence. exists x, y, z. destruct H0 as [A B], H1 as [C E], Hp as [A' B'], Hq as [C' E']. simpl in *.
    assert (c0 = p.1) as -> by congruence. assert (c1 = p.2) as -> by congruence. assert (c2 = q.1) as -> by congruence. assert (c3 = q.2) as -> by congruence.
    rewrite same_pair_cases in S, S'. pose proof (D 0 x z X W). tauto.
  Qed.
  Lemma next_node ys i xs c0 c1 c2 c3 : node_path l n ys -> 2 <= i < n -> node_path l i xs -> xs @ (i - 1) = Some c0 -> xs @ i = Some c1 -> pair_at l i (c2, c3) ->
    exists z, ((c2 = c1 /\ c3 = z) \/ (c2 = z /\ c3 = c1)) /\ z <> c1 /\ z <> c0.
  Proof.
    intros Hp Hi Hx H0 H1 H2. pose proof (path_prefix l n i ys ltac:(lia) Hp) as Hpre. pose proof (path_unique l i _ _ ltac:(lia) Hx Hpre) as ->.
    rewrite zlook_take in H0, H1 by lia. destruct Hp as (L & H & D). destruct (H i ltac:(lia)) as (p & x & z & Hp & X & Z' & S & N). assert (x = c1) as -> by congruence.
    exists z. destruct H2 as [A B], Hp as [A' B']. simpl in *. assert (c2 = p.1) as -> by congruence. assert (c3 = p.2) as -> by congruence.
    rewrite same_pair_cases in S. replace (i + 1) with (i - 1 + 2) in Z' by lia. pose proof (D _ _ _ H0 Z'). split; [tauto|split; congruence].
  Qed.

  (** the state after the pair of rank [i] has been written *)
  Lemma link_first v c0 c1 c2 c3 x y z : pair_at l 0 (c0, c1) -> pair_at l 1 (c2, c3) -> same_pair (c0, c1) (x, y) -> same_pair (c2, c3) (y, z) -> x <> y -> y <> z -> x <> z ->
    zlen v = 2 * n -> v @ 0 = Some x -> v @ 1 = Some y -> v @ 2 = Some y -> v @ 3 = Some z -> (forall k, 4 <= k -> v @ k = l @ k) -> linkInv 2 v.
  Proof.
    intros P0 P1 S0 S1 N1 N2 N3 Hv V0 V1 V2 V3 Hr. split; [lia|]. split; [done|]. split; [intros k Hk; apply Hr; lia|]. split; [lia|]. intros _. exists [x; y; z].
    split; [eapply path_intro2; done|]. intros k Hk. assert (k = 0 \/ k = 1) as [->| ->] by lia; done.
  Qed.
  Lemma link_next i v w c0 c1 z : linkInv i v -> 2 <= i < n -> v @ (2 * (i - 1)) = Some c0 -> v @ (2 * (i - 1) + 1) = Some c1 ->
    (exists p, pair_at l i p /\ same_pair p (c1, z)) -> z <> c1 -> z <> c0 -> zlen w = 2 * n -> w @ (2 * i) = Some c1 -> w @ (2 * i + 1) = Some z ->
    (forall k, k <> 2 * i -> k <> 2 * i + 1 -> w @ k = v @ k) -> linkInv (i + 1) w.
  Proof.
    intros (Hi & Hlen & Hrest & _ & Hp) Hi2 V0 V1 (p & Pp & Sp) N1 N0 Hw W0 W1 Ho. destruct (Hp ltac:(lia)) as (xs & Hxs & Hk). clear Hp.
    destruct (Hk (i - 1) ltac:(lia)) as [K0 K1]. replace (i - 1 + 1) with i in K1 by lia. rewrite V0 in K0. rewrite V1 in K1. symmetry in K0, K1.
    split; [lia|]. split; [done|]. split; [intros k Hk'; rewrite Ho by lia; apply Hrest; lia|]. split; [lia|]. intros _. exists (xs ++ [z]). split.
    - eapply path_snoc; try done; (lia || congruence).
    - intros k Hk'. pose proof Hxs as (L & _). destruct (decide (k = i)) as [->|].
      + rewrite W0, W1. split; [rewrite zlook_app_l by lia; done|]. rewrite <- L. symmetry. apply zlook_snoc.
      + rewrite !Ho by lia. rewrite !zlook_app_l by lia. apply Hk. lia.
  Qed.
End Linked.

Lemma link_wp d : da_alloc d = true -> da_wf d -> da_nc d = 2 -> 2 <= da_nt d ->
  wp (sortEachPairToMakeALinkedList d) (fun r => exists xs, node_path (da_vals d) (da_nt d) xs /\ zlen r = 2 * da_nt d /\ forall k, 0 <= k < da_nt d -> r @ (2 * k) = xs @ k /\ r @ (2 * k + 1) = xs @ (k + 1))
    (forall ys, ~ node_path (da_vals d) (da_nt d) ys).
Proof.
  intros Ha Hwf Hc Hn. pose proof (da_wf_len d Hwf) as (Hl & _). rewrite Hc in Hl. unfold sortEachPairToMakeALinkedList, checkAllocated. rewrite Ha, Hc. cbn [negb ifthrow Z.eqb Pos.eqb].
  replace (da_nt d <=? 1) with false by lia. set (n := da_nt d) in *. set (l := da_vals d) in *.
  apply (wp_forZ (linkInv l n)); [lia| | |].
  - split; [lia|]. split; [lia|]. split; [done|]. split; [done|]. lia.
  - intros i v Hi Hinv. pose proof Hinv as (_ & Hlen & Hrest & H1 & H2).
    assert (Hr : forall k, 0 <= k < 2 * n -> exists x, v @ k = Some x). { intros k Hk. destruct (v @ k) eqn:E; [eauto|]. apply zlook_None in E. lia. }
    destruct (Hr (2 * (i - 1)) ltac:(lia)) as [c0 E0]. destruct (Hr (2 * (i - 1) + 1) ltac:(lia)) as [c1 E1].
    destruct (Hr (2 * (i - 1) + 2) ltac:(lia)) as [c2 E2]. destruct (Hr (2 * (i - 1) + 3) ltac:(lia)) as [c3 E3]. clear Hr.
    rewrite (rd_ok _ _ _ E0), (rd_ok _ _ _ E1), (rd_ok _ _ _ E2), (rd_ok _ _ _ E3). cbn [bind].
    replace (2 * (i - 1) + 2) with (2 * i) in * by lia. replace (2 * (i - 1) + 3) with (2 * i + 1) in * by lia.
    assert (Hpi : pair_at l i (c2, c3)). { split; simpl; [rewrite <- E2|rewrite <- E3]; symmetry; apply Hrest; lia. }
    destruct (Z.ltb_spec 1 i) as [Hgt|Hle].
    + destruct (H2 ltac:(lia)) as (xs & Hxs & Hk). destruct (Hk (i - 1) ltac:(lia)) as [K0 K1]. replace (i - 1 + 1) with i in K1 by lia. rewrite E0 in K0. rewrite E1 in K1. symmetry in K0, K1.
      assert (Hthrow : forall ys, node_path l n ys -> exists z, ((c2 = c1 /\ c3 = z) \/ (c2 = z /\ c3 = c1)) /\ z <> c1 /\ z <> c0).
      { intros ys Hys. eapply (next_node l n ys i xs); try done. lia. }
      apply wp_ifthrow; [intros Hx ys Hys; destruct (Hthrow ys Hys) as (z & Hz & ? & ?); lia|intros Hx1].
      apply wp_ifthrow; [intros Hx ys Hys; destruct (Hthrow ys Hys) as (z & Hz & ? & ?); lia|intros Hx2].
      destruct (negb (c2 =? c1) && (c3 =? c1) && negb (c2 =? c0)) eqn:Esw.
      * rewrite wr_ok by lia. cbn [bind]. rewrite wr_ok by (rewrite zlen_zset; lia). cbn [bind].
        rewrite (rd_ok _ (2 * i) c3) by (rewrite !zlook_zset by (rewrite ?zlen_zset; lia); replace (2 * i =? 2 * i + 1) with false by lia; rewrite Z.eqb_refl; done). cbn [bind].
        rewrite (rd_ok _ (2 * i + 1) c2) by (rewrite zlook_zset by (rewrite ?zlen_zset; lia); rewrite Z.eqb_refl; done). cbn [bind].
        apply wp_ifthrow; [intros Hx ys Hys; destruct (Hthrow ys Hys) as (z & Hz & ? & ?); lia|intros Hx3]. cbn [wp].
        apply (link_next l n i v _ c0 c1 c2); try done; try lia.
        -- exists (c2, c3). split; [done|]. apply same_pair_cases. simpl. lia.
        -- rewrite !zlen_zset. done.
        -- rewrite !zlook_zset by (rewrite ?zlen_zset; lia). replace (2 * i =? 2 * i + 1) with false by lia. rewrite Z.eqb_refl. f_equal. lia.
        -- rewrite zlook_zset by (rewrite ?zlen_zset; lia). rewrite Z.eqb_refl. done.
        -- intros k Hk1 Hk2. rewrite !zlook_zset by (rewrite ?zlen_zset; lia). replace (k =? 2 * i + 1) with false by lia. replace (k =? 2 * i) with false by lia. done.
      * cbn [bind]. rewrite (rd_ok _ _ _ E2), (rd_ok _ _ _ E3). cbn [bind].
        apply wp_ifthrow; [intros Hx ys Hys; destruct (Hthrow ys Hys) as (z & Hz & ? & ?); lia|intros Hx3]. cbn [wp].
        apply (link_next l n i v _ c0 c1 c3); try done; try lia.
        -- exists (c2, c3). split; [done|]. apply same_pair_cases. simpl. lia.
        -- rewrite E2. f_equal. lia.
    + assert (i = 1) as -> by lia. specialize (H1 eq_refl). change (2 * (1 - 1)) with 0 in *. change (0 + 1) with 1 in *. change (2 * 1) with 2 in *. change (2 + 1) with 3 in *. change (1 + 1) with 2.
      assert (Hp0 : pair_at l 0 (c0, c1)) by (rewrite <- H1; split; done).
      assert (Hthrow : forall ys, node_path l n ys -> exists y0 y1 y2, ((c0 = y0 /\ c1 = y1) \/ (c0 = y1 /\ c1 = y0)) /\ ((c2 = y1 /\ c3 = y2) \/ (c2 = y2 /\ c3 = y1)) /\ y0 <> y1 /\ y1 <> y2 /\ y0 <> y2).
      { intros ys Hys. eapply two_nodes; done. }
      apply wp_ifthrow; [intros Hx ys Hys; destruct (Hthrow ys Hys) as (y0 & y1 & y2 & Hz & ? & ?); lia|intros Hx1].
      apply wp_ifthrow; [intros Hx ys Hys; destruct (Hthrow ys Hys) as (y0 & y1 & y2 & Hz & ? & ?); rewrite (proj2 (set4 c0 c1 c2 c3 ltac:(lia) ltac:(lia))) in Hx by lia; done|intros Hx2].
      assert (Hs4 : (c0 = c2 /\ c1 <> c3) \/ (c0 = c3 /\ c1 <> c2) \/ (c1 = c2 /\ c0 <> c3) \/ (c1 = c3 /\ c0 <> c2)) by (apply set4; lia). clear Hx2 Hthrow.
      pose proof (cnt4_first c0 c1 c2 c3 ltac:(lia) ltac:(lia)) as Hcnt.
      destruct (Z.eqb_spec (cnt4 [c0; c1; c2; c3] c0) 2) as [Hc2|Hc2]; [|destruct (Z.eqb_spec c1 c3) as [E13|N13]].
      * rewrite wr_ok by lia. cbn [bind]. rewrite wr_ok by (rewrite !zlen_zset; lia). cbn [bind]. rewrite wr_ok by (rewrite !zlen_zset; lia). cbn [bind]. rewrite wr_ok by (rewrite !zlen_zset; lia). cbn [wp].
        apply (link_first l n Hn _ c0 c1 c2 c3 c1 c0 (if c2 =? c0 then c3 else c2)); try done; try (rewrite ?same_pair_cases; simpl; destruct (Z.eqb_spec c2 c0); lia).
        -- rewrite !zlen_zset. done.
        -- rewrite !zlook_zset by (rewrite ?zlen_zset; lia). done.
        -- rewrite !zlook_zset by (rewrite ?zlen_zset; lia). done.
        -- rewrite !zlook_zset by (rewrite ?zlen_zset; lia). done.
        -- rewrite !zlook_zset by (rewrite ?zlen_zset; lia). done.
        -- intros k Hk. rewrite !zlook_zset by (rewrite ?zlen_zset; lia). replace (k =? 3) with false by lia. replace (k =? 2) with false by lia. replace (k =? 1) with false by lia. replace (k =? 0) with false by lia. congruence.
      * rewrite wr_ok by lia. cbn [bind]. rewrite wr_ok by (rewrite !zlen_zset; lia). cbn [wp].
        apply (link_first l n Hn _ c0 c1 c2 c3 c0 c1 c2); try done; try (rewrite ?same_pair_cases; simpl; lia).
        -- rewrite !zlen_zset. done.
        -- rewrite !zlook_zset by (rewrite ?zlen_zset; lia). done.
        -- rewrite !zlook_zset by (rewrite ?zlen_zset; lia). done.
        -- rewrite !zlook_zset by (rewrite ?zlen_zset; lia). simpl. congruence.
        -- rewrite !zlook_zset by (rewrite ?zlen_zset; lia). done.
        -- intros k Hk. rewrite !zlook_zset by (rewrite ?zlen_zset; lia). replace (k =? 3) with false by lia. replace (k =? 2) with false by lia. congruence.
      * cbn [wp]. apply (link_first l n Hn _ c0 c1 c2 c3 c0 c1 c3); try done; try (rewrite ?same_pair_cases; simpl; lia).
        -- rewrite E2. f_equal. lia.
        -- intros k Hk. congruence.
  - intros v (_ & Hlen & _ & _ & Hp). destruct (Hp ltac:(lia)) as (xs & Hx & Hk). eauto.
Qed.

Lemma link_ok d xs : da_alloc d = true -> da_wf d -> da_nc d = 2 -> 2 <= da_nt d -> node_path (da_vals d) (da_nt d) xs ->
  exists r, sortEachPairToMakeALinkedList d = Ok r /\ zlen r = zlen (da_vals d) /\ forall k, 0 <= k < da_nt d -> r @ (2 * k) = xs @ k /\ r @ (2 * k + 1) = xs @ (k + 1).
Proof.
  intros Ha Hwf Hc Hn Hp. pose proof (link_wp d Ha Hwf Hc Hn) as H. pose proof (da_wf_len d Hwf) as (Hl & _). rewrite Hc in Hl.
  destruct (sortEachPairToMakeALinkedList d) as [r| | |]; simpl in H; try done; [|exfalso; eapply H; done].
  destruct H as (ys & Hy & Hlen & Hk). rewrite (path_unique _ _ _ _ Hn Hp Hy). exists r. split; [done|]. split; [lia|done].
Qed.
Lemma link_throw d : da_wf d -> sortEachPairToMakeALinkedList d = Throw <-> da_alloc d = false \/ da_nc d <> 2 \/ (2 <= da_nt d /\ forall xs, ~ node_path (da_vals d) (da_nt d) xs).
Proof.
  intros Hwf. destruct (da_alloc d) eqn:Ha; [|unfold sortEachPairToMakeALinkedList, checkAllocated; rewrite Ha; simpl; tauto].
  destruct (decide (da_nc d = 2)) as [Hc|Hc].
  2:{ unfold sortEachPairToMakeALinkedList, checkAllocated. rewrite Ha. replace (da_nc d =? 2) with false by lia. simpl. tauto. }
  destruct (decide (2 <= da_nt d)) as [Hn|Hn].
  - pose proof (link_wp d Ha Hwf Hc Hn) as H. destruct (sortEachPairToMakeALinkedList d) as [r| | |]; simpl in H; try done.
    + split; [done|]. intros [?|[?|[_ Hx]]]; [done|done|]. destruct H as (xs & Hp & _). exfalso. eapply Hx; done.
    + split; [|done]. intros _. right; right. done.
  - unfold sortEachPairToMakeALinkedList, checkAllocated. rewrite Ha, Hc. cbn [negb ifthrow Z.eqb Pos.eqb]. replace (da_nt d <=? 1) with true by lia. split; [done|]. intros [?|[?|[? _]]]; [done|done|lia].
Qed.
Lemma link_small d : da_alloc d = true -> da_nc d = 2 -> da_nt d <= 1 -> sortEachPairToMakeALinkedList d = Ok (da_vals d).
Proof. intros Ha Hc Hn. unfold sortEachPairToMakeALinkedList, checkAllocated. rewrite Ha, Hc. cbn [negb ifthrow Z.eqb Pos.eqb]. replace (da_nt d <=? 1) with true by lia. done. Qed.

(** * fromLinkedListOfPairToList *)
Lemma nodes_wp d ps : da_alloc d = true -> da_nc d = 2 -> da_vals d = flat ps -> da_nt d = zlen ps ->
  wp (fromLinkedListOfPairToList d) (fun r => 1 <= zlen ps /\ consecutive ps /\ zlen r = zlen ps + 1 /\ r @ 0 = Some <$> (fst <$> ps @ 0) /\ forall i, 0 <= i < zlen ps -> r @ (i + 1) = Some <$> (snd <$> ps @ i))
     (zlen ps < 1 \/ ~ consecutive ps).
Proof.
  intros Ha Hc Hv Hn. unfold fromLinkedListOfPairToList, checkAllocated. rewrite Ha, Hc, Hv, Hn. cbn [negb ifthrow Z.eqb Pos.eqb].
  apply wp_ifthrow; [lia|intros Hge]. set (n := zlen ps) in *.
  unfold alloc. apply wp_bind. apply wp_ubif; [lia|]. cbn [wp]. rewrite Z.mul_1_l.
  assert (Hf : forall i, 0 <= i < n -> exists p, ps @ i = Some p /\ flat ps @ (2 * i) = Some p.1 /\ flat ps @ (2 * i + 1) = Some p.2).
  { intros i Hi. destruct (ps @ i) as [p|] eqn:E; [|apply zlook_None in E; lia]. exists p. destruct (flat_look ps i) as [-> ->]. rewrite E. done. }
  destruct (Hf 0 ltac:(lia)) as (p0 & P0 & F0 & _). change (2 * 0) with 0 in F0. rewrite (rd_ok _ _ _ F0). cbn [bind]. unfold wrc at 1. rewrite wr_ok by (rewrite zlen_malloc; lia). cbn [bind].
  apply (wp_forZ (fun i (r : list (option Z)) => 0 <= i <= n /\ zlen r = n + 1 /\ r @ 0 = Some (Some p0.1) /\ (forall k, 0 <= k < i -> r @ (k + 1) = Some <$> (snd <$> ps @ k)) /\
     forall k p q, k < i -> ps @ k = Some p -> ps @ (k + 1) = Some q -> p.2 = q.1)).
  - lia.
  - split; [lia|]. split; [rewrite zlen_zset, zlen_malloc; lia|]. split; [rewrite zlook_zset by (rewrite zlen_malloc; lia); done|]. split; [lia|]. intros k p q Hk Hp. apply zlook_Some_lt in Hp. lia.
  - intros i r Hi (_ & Hlen & H0 & Hk & Hq). destruct (Hf i Hi) as (p & Pi & _ & F2). rewrite (rd_ok _ _ _ F2). cbn [bind]. unfold wrc. rewrite wr_ok by lia. cbn [bind].
    assert (Hgoal : (forall q, ps @ (i + 1) = Some q -> p.2 = q.1) -> 0 <= i + 1 <= n /\ zlen (zset r (i + 1) (Some p.2)) = n + 1 /\ zset r (i + 1) (Some p.2) @ 0 = Some (Some p0.1) /\
      (forall k, 0 <= k < i + 1 -> zset r (i + 1) (Some p.2) @ (k + 1) = Some <$> (snd <$> ps @ k)) /\ forall k p q, k < i + 1 -> ps @ k = Some p -> ps @ (k + 1) = Some q -> p.2 = q.1).
    { intros Hnext. split; [lia|]. split; [rewrite zlen_zset; done|]. split; [rewrite zlook_zset by lia; replace (0 =? i + 1) with false by lia; done|]. split.
      - intros k Hk'. rewrite zlook_zset by lia. destruct (Z.eqb_spec (k + 1) (i + 1)); [|apply Hk; lia]. assert (k = i) as -> by lia. rewrite Pi. done.
      - intros k a b Hk' Ha' Hb'. destruct (decide (k = i)) as [->|]; [|apply (Hq k); (done || lia)]. assert (a = p) as -> by congruence. auto. }
    destruct (Z.ltb_spec i (n - 1)) as [Hlt|Hlast].
    + destruct (Hf (i + 1) ltac:(lia)) as (q & Pq & F1 & _). rewrite (rd_ok _ _ _ F1). cbn [bind]. apply wp_ifthrow.
      * intros Hx. right. intros Hcons. specialize (Hcons i p q Pi Pq). lia.
      * intros Hx. cbn [wp]. apply Hgoal. intros q' Hq'. assert (q' = q) as -> by congruence. lia.
    + cbn [wp]. apply Hgoal. intros q' Hq'. apply zlook_Some_lt in Hq'. lia.
  - intros r (_ & Hlen & H0 & Hk & Hq). split; [lia|]. split; [|split; [done|]; split; [rewrite P0; done|done]].
    intros k p q Hp Hq'. apply (Hq k); [|done..]. apply zlook_Some_lt in Hp. lia.
Qed.
Lemma nodes_ok d ps : da_alloc d = true -> da_wf d -> da_nc d = 2 -> da_vals d = flat ps -> ps <> [] -> consecutive ps ->
  exists r, fromLinkedListOfPairToList d = Ok (Some <$> r) /\ zlen r = zlen ps + 1 /\ forall i p, ps @ i = Some p -> r @ i = Some p.1 /\ r @ (i + 1) = Some p.2.
Proof.
  intros Ha Hwf Hc Hv Hne Hcons. pose proof (da_wf_len d Hwf) as (Hl & _). rewrite Hc, Hv, flat_len in Hl.
  pose proof (nodes_wp d ps Ha Hc Hv ltac:(lia)) as H. assert (Hge : 1 <= zlen ps). { destruct ps; [done|]. rewrite zlen_cons. pose proof (zlen_nonneg ps). lia. }
  destruct (fromLinkedListOfPairToList d) as [r| | |]; simpl in H; try done; [|destruct H as [H|H]; [lia|done]].
  destruct H as (_ & _ & Hlen & H0 & Hk).
  assert (Hg : forall i, 0 <= i < zlen r -> exists x, r @ i = Some (Some x)).
  { intros i Hi. destruct (decide (i = 0)) as [->|].
    - rewrite H0. destruct (ps @ 0) eqn:E; [simpl; eauto|]. apply zlook_None in E. lia.
    - replace i with (i - 1 + 1) by lia. rewrite Hk by lia. destruct (ps @ (i - 1)) eqn:E; [simpl; eauto|]. apply zlook_None in E. lia. }
  destruct (all_some r Hg) as (q & ->). exists q. split; [done|]. rewrite zlen_fmap in Hlen. split; [done|]. intros i p Hp. pose proof (zlook_Some_lt _ _ _ Hp).
  assert (Hq : forall k, q @ k = match (Some <$> q) @ k with Some x => x | None => None end) by (intros k; rewrite zlook_fmap; destruct (q @ k); done).
  split; [|rewrite Hq, Hk, Hp by lia; done]. destruct (decide (i = 0)) as [->|]; [rewrite Hq, H0, Hp; done|].
  replace i with (i - 1 + 1) by lia. rewrite Hq, Hk by lia. destruct (ps @ (i - 1)) as [p'|] eqn:E; [|apply zlook_None in E; lia]. simpl. f_equal.
  apply (Hcons (i - 1)); [done|]. rewrite <- Hp. f_equal. lia.
Qed.
Lemma nodes_throw d ps : da_wf d -> da_vals d = flat ps -> da_alloc d = true -> da_nc d = 2 -> fromLinkedListOfPairToList d = Throw <-> ps = [] \/ ~ consecutive ps.
Proof.
  intros Hwf Hv Ha Hc. pose proof (da_wf_len d Hwf) as (Hl & _). rewrite Hc, Hv, flat_len in Hl.
  pose proof (nodes_wp d ps Ha Hc Hv ltac:(lia)) as H.
  assert (Hz : zlen ps < 1 <-> ps = []). { split; [|intros ->; done]. destruct ps; [done|]. rewrite zlen_cons. pose proof (zlen_nonneg ps). lia. }
  destruct (fromLinkedListOfPairToList d) as [r| | |]; simpl in H; try done.
  - split; [done|]. intros [->|?]; [destruct H as [H _]; change (zlen []) with 0 in H; lia|tauto].
  - rewrite Hz in H. tauto.
Qed.
(** a round trip: the nodes of a path, cut into pairs flipped at will, are found again *)
Lemma link_roundtrip d xs : da_alloc d = true -> da_wf d -> da_nc d = 2 -> 2 <= da_nt d -> node_path (da_vals d) (da_nt d) xs ->
  exists r, sortEachPairToMakeALinkedList d = Ok r /\ fromLinkedListOfPairToList (DA true 2 r) = Ok (Some <$> xs).
Proof.
  intros Ha Hwf Hc Hn Hp. destruct (link_ok d xs Ha Hwf Hc Hn Hp) as (r & Hr & Hlr & Hk). exists r. split; [done|].
  pose proof (da_wf_len d Hwf) as (Hl & _). rewrite Hc in Hl. destruct Hp as (Lx & _ & _).
  destruct (flat_surj r (da_nt d)) as (ps & -> & Hps); [lia|].
  assert (Hpx : forall i p, ps @ i = Some p -> xs @ i = Some p.1 /\ xs @ (i + 1) = Some p.2).
  { intros i p Hi. pose proof (zlook_Some_lt _ _ _ Hi). destruct (Hk i ltac:(lia)) as [<- <-]. apply flat_pair_at. done. }
  assert (Hwf' : da_wf (DA true 2 (flat ps))). { unfold da_wf. simpl. split; [lia|]. rewrite flat_len. exists (zlen ps). pose proof (zlen_nonneg ps). lia. }
  destruct (nodes_ok (DA true 2 (flat ps)) ps) as (q & -> & Hq & Hqk); try done.
  - intros ->. change (zlen []) with 0 in Hps. lia.
  - intros i p p' H1 H2. apply Hpx in H1, H2. assert (Some p.2 = Some p'.1) by (transitivity (xs @ (i + 1)); [symmetry|]; tauto). congruence.
  - do 2 f_equal. apply zlook_ext_lt; [lia|]. intros i Hi. destruct (decide (i = 0)) as [->|].
    + destruct (ps @ 0) as [p|] eqn:E; [|apply zlook_None in E; lia]. destruct (Hpx _ _ E) as [-> _]. destruct (Hqk _ _ E) as [-> _]. done.
    + destruct (ps @ (i - 1)) as [p|] eqn:E; [|apply zlook_None in E; lia]. destruct (Hpx _ _ E) as [_ H1]. destruct (Hqk _ _ E) as [_ H2].
      replace (i - 1 + 1) with i in * by lia. rewrite H1, H2. done.
Qed.
