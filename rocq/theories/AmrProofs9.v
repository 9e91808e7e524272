From Verif Require Import Base DataArray ArrLib SearchSpec StdProofs StrModel StrSpec StrProofs StrProofs2 StrProofs4 ConnProofs ConnProofs2 AmrModel AmrSpec AmrProofs AmrProofs2 AmrProofs3 AmrProofs4 AmrProofs5 AmrProofs6 AmrProofs7 AmrProofs8.
From Coq Require Import ZifyBool ZifyNat.

Lemma withGhost_ghosted g l : withGhost g l = ghosted g l.
Proof. done. Qed.
Lemma dim_ghosted g l : dim_ok l -> dim_ok (ghosted g l).
Proof. unfold dim_ok, ghosted. by rewrite zlen_fmap. Qed.
Section refused.
Context {A : Type} (plus : A -> A -> A).
Lemma refused_shape g st part facts (fine coarse : option (da A)) :
  g < 0 \/ zlen st <> zlen part \/ zlen st <> zlen facts \/ fine = None \/ coarse = None \/ (exists d, fine = Some d /\ da_alloc d = false) \/ (exists d, coarse = Some d /\ da_alloc d = false) ->
  CondenseFineToCoarseGhost plus st fine part facts coarse g = Throw /\ (forall zone, SpreadGhost zone coarse st fine part facts g = Throw) /\
  (0 <= g -> CondenseFineToCoarse plus st fine part facts coarse = Throw /\ SpreadCoarseToFine coarse st fine part facts = Throw).
Proof.
  intros H. unfold CondenseFineToCoarseGhost, SpreadGhost, CondenseFineToCoarse, SpreadCoarseToFine, ghostChecks.
  destruct (g <? 0) eqn:E1; cbn [ifthrow]; [split; [done|]; split; [done|]; lia|].
  destruct (negb (zlen st =? zlen part) || negb (zlen st =? zlen facts)) eqn:E2; cbn [ifthrow]; [done|].
  destruct coarse as [coarse|]; [|done]. destruct fine as [fine|]; [|done].
  destruct (negb (da_alloc coarse) || negb (da_alloc fine)) eqn:E3; cbn [ifthrow]; [done|]. exfalso.
  destruct H as [H|[H|[H|[H|[H|[(d & [= <-] & H)|(d & [= <-] & H)]]]]]]; [lia..|done|done| |]; rewrite H in E3; destruct (da_alloc coarse); done.
Qed.
Lemma refused_ghost g st part facts (fine coarse : da A) : 0 <= g -> dim_ok st -> box_in st part -> zlen facts = zlen st -> Forall (Z.lt 0) facts ->
  da_nc fine <> da_nc coarse \/ da_nt coarse <> grid_nb (ghosted g st) \/ da_nt fine <> grid_nb (ghosted g (fine_st part facts)) ->
  CondenseFineToCoarseGhost plus st (Some fine) part facts (Some coarse) g = Throw /\ (forall zone, SpreadGhost zone (Some coarse) st (Some fine) part facts g = Throw).
Proof.
  intros Hg Hd Hb Hl Hf H. pose proof (okp_in _ _ _ Hb Hl Hf) as Hk. unfold CondenseFineToCoarseGhost, SpreadGhost, ghostChecks.
  replace (g <? 0) with false by lia. cbn [ifthrow]. destruct (negb (zlen st =? zlen part) || negb (zlen st =? zlen facts)); cbn [ifthrow]; [done|].
  destruct (negb (da_alloc coarse) || negb (da_alloc fine)); cbn [ifthrow]; [done|].
  assert (Forall (Z.le 0) st) as Hst by (by eapply okp_nonneg).
  rewrite withGhost_ghosted, nbStruct_ok by (first [apply dim_ok_ne; by apply dim_ghosted|by apply ghosted_nonneg]). cbn [bind].
  destruct (negb (da_nc coarse =? da_nc fine)) eqn:E1; cbn [ifthrow]; [done|]. destruct (negb (da_nt coarse =? _)) eqn:E2; cbn [ifthrow]; [done|].
  rewrite getDims_ok by (by eapply okp_dims). cbn [bind]. change (zip_with Z.mul (box_dims part) facts) with (fine_st part facts).
  assert (dim_ok (fine_st part facts)) as Hfd. { unfold dim_ok in *. assert (zlen (fine_st part facts) = zlen st) as ->; [|done]. clear -Hk. induction Hk; [done|]. rewrite fine_cons, !zlen_cons. lia. }
  rewrite withGhost_ghosted, nbStruct_ok by (first [apply dim_ok_ne; by apply dim_ghosted|apply ghosted_nonneg; [done|by eapply fine_nonneg]]). cbn [bind].
  destruct (negb (da_nt fine =? _)) eqn:E3; cbn [ifthrow]; [done|]. exfalso. lia.
Qed.
Lemma refused_plain st part facts (fine coarse : da A) : dim_ok st -> box_in st part -> zlen facts = zlen st -> Forall (Z.lt 0) facts -> grid_nb facts < 2147483648 ->
  da_nc fine <> da_nc coarse \/ da_nt coarse <> grid_nb st \/ da_nt fine <> grid_nb (fine_st part facts) ->
  CondenseFineToCoarse plus st (Some fine) part facts (Some coarse) = Throw /\ (nonempty_box part -> SpreadCoarseToFine (Some coarse) st (Some fine) part facts = Throw).
Proof.
  intros Hd Hb Hl Hf Hm H. pose proof (okp_in _ _ _ Hb Hl Hf) as Hk. unfold CondenseFineToCoarse, SpreadCoarseToFine, condenseChecks.
  destruct (negb (zlen st =? zlen part) || negb (zlen st =? zlen facts)); cbn [ifthrow]; [done|].
  destruct (negb (da_alloc coarse) || negb (da_alloc fine)); cbn [ifthrow]; [done|].
  assert (Forall (Z.le 0) st) as Hst by (by eapply okp_nonneg).
  rewrite nbStruct_ok by (first [by apply dim_ok_ne|done]). cbn [bind]. rewrite (nbRange_ok _ _ _ Hk). cbn [bind].
  destruct (negb (da_nc coarse =? da_nc fine)) eqn:E1; cbn [ifthrow]; [done|]. destruct (negb (da_nt coarse =? _)) eqn:E2; cbn [ifthrow]; [done|].
  rewrite acc_mul by (first [by eapply okp_facts|lia]). rewrite Z.mul_1_l.
  assert (da_nt fine <> grid_nb facts * grid_nb (box_dims part)) as Hn. { pose proof (fine_nb _ _ _ Hk). lia. }
  split.
  - destruct (grid_nb (box_dims part) =? 0) eqn:E3; [destruct (da_nt fine =? 0) eqn:E4; [exfalso; nia|done]|]. destruct (negb (Z.rem _ _ =? 0)); cbn [ifthrow]; [done|]. replace (negb (da_nt fine =? _)) with true by lia. done.
  - intros Hne. assert (0 < grid_nb (box_dims part)) as Hpos. { apply grid_nb_pos. clear -Hne. induction Hne; constructor; [lia|done]. }
    replace (grid_nb (box_dims part) =? 0) with false by lia. cbn [ubif]. destruct (negb (Z.rem _ _ =? 0)); cbn [ifthrow]; [done|]. replace (negb (da_nt fine =? _)) with true by lia. done.
Qed.
End refused.
(** Spreading then condensing, on the functions. *)
Lemma round_trip {A} (plus : A -> A -> A) g st part facts (fine coarse : da A) : 0 <= g -> fits g st part facts fine coarse ->
  exists fine' r, SpreadGhost false (Some coarse) st (Some fine) part facts g = Ok fine' /\ CondenseFineToCoarseGhost plus st (Some fine') part facts (Some coarse) g = Ok r /\
    (forall cell c v, in_box part cell -> ij coarse (tuple_of g st cell) c = Some v -> ij r (tuple_of g st cell) c = sum_up plus (replicate (Z.to_nat (grid_nb facts)) v)) /\
    (forall i c, (forall cell, in_box part cell -> i <> tuple_of g st cell) -> ij r i c = ij coarse i c).
Proof.
  intros Hg Hf. destruct (spread_ghost g st part facts fine coarse Hg Hf) as (fine' & H1 & H2). pose proof H2 as (A1 & A2 & A3 & A4 & _).
  destruct (condense_ghost plus g st part facts fine' coarse) as (r & H3 & H4); [done|destruct Hf as [? ? ? [? ?] [? ?] ? ? ?]; constructor; try done; congruence|].
  exists fine', r. split; [done|]. split; [done|]. split; [by eapply spread_condense|]. by destruct H4 as (_ & _ & _ & _ & _ & H4).
Qed.
Lemma round_trip_Z g st part facts (fine coarse : da Z) : 0 <= g -> fits g st part facts fine coarse ->
  exists fine' r, SpreadGhost false (Some coarse) st (Some fine) part facts g = Ok fine' /\ CondenseFineToCoarseGhost Z.add st (Some fine') part facts (Some coarse) g = Ok r /\
    (forall cell c v, in_box part cell -> ij coarse (tuple_of g st cell) c = Some v -> ij r (tuple_of g st cell) c = Some (grid_nb facts * v)) /\
    (forall i c, (forall cell, in_box part cell -> i <> tuple_of g st cell) -> ij r i c = ij coarse i c).
Proof.
  intros Hg Hf. destruct (round_trip Z.add g st part facts fine coarse Hg Hf) as (f' & r & H1 & H2 & H3 & H4). exists f', r. split; [done|]. split; [done|]. split; [|done].
  intros cell c v Hc Hv. rewrite (H3 cell c v Hc Hv). apply sum_same. eapply facts_pos. by eapply fits_okp.
Qed.
Lemma round_trip_plain {A} (plus : A -> A -> A) st part facts (fine coarse : da A) : fits 0 st part facts fine coarse -> grid_nb facts < 2147483648 -> nonempty_box part -> last_equal facts ->
  exists fine' r, SpreadCoarseToFine (Some coarse) st (Some fine) part facts = Ok fine' /\ CondenseFineToCoarse plus st (Some fine') part facts (Some coarse) = Ok r /\
    (forall cell c v, in_box part cell -> ij coarse (tuple_of 0 st cell) c = Some v -> ij r (tuple_of 0 st cell) c = sum_up plus (replicate (Z.to_nat (grid_nb facts)) v)) /\
    (forall i c, (forall cell, in_box part cell -> i <> tuple_of 0 st cell) -> ij r i c = ij coarse i c).
Proof.
  intros Hf Hm Hne Hla. destruct (spread_plain st part facts fine coarse Hf Hm Hne Hla) as (fine' & H1 & H2). pose proof H2 as (A1 & A2 & A3 & A4 & _).
  destruct (condense_ok plus st part facts fine' coarse) as (r & H3 & H4); [destruct Hf as [? ? ? [? ?] [? ?] ? ? ?]; constructor; try done; congruence|done|].
  exists fine', r. split; [done|]. split; [done|]. split; [by eapply spread_condense|]. by destruct H4 as (_ & _ & _ & _ & _ & H4).
Qed.
Lemma conserve_ghost g st part facts (fine coarse : da Z) : 0 <= g -> fits g st part facts fine coarse ->
  exists r, CondenseFineToCoarseGhost Z.add st (Some fine) part facts (Some coarse) g = Ok r /\
    forall c cs xs, 0 <= c < da_nc coarse -> enumerates (covered g st part) cs -> enumerates (patch g part facts) xs -> total r c cs = total fine c xs.
Proof. intros Hg Hf. destruct (condense_ghost Z.add g st part facts fine coarse Hg Hf) as (r & H1 & H2). exists r. split; [done|]. by eapply conserved. Qed.
Lemma conserve_plain st part facts (fine coarse : da Z) : fits 0 st part facts fine coarse -> grid_nb facts < 2147483648 ->
  exists r, CondenseFineToCoarse Z.add st (Some fine) part facts (Some coarse) = Ok r /\
    forall c cs xs, 0 <= c < da_nc coarse -> enumerates (covered 0 st part) cs -> enumerates (patch 0 part facts) xs -> total r c cs = total fine c xs.
Proof. intros Hf Hm. destruct (condense_ok Z.add st part facts fine coarse Hf Hm) as (r & H1 & H2). exists r. split; [done|]. by eapply conserved. Qed.

(** Where the code fails. *)
Lemma fits_b {A} g st part facts (fine coarse : da A) : dim_ok st -> box_in st part -> zlen facts = zlen st -> Forall (Z.lt 0) facts -> da_alloc fine = true -> da_alloc coarse = true -> da_wf fine -> da_wf coarse ->
  da_nc fine = da_nc coarse -> da_nt coarse = grid_nb (ghosted g st) -> da_nt fine = grid_nb (ghosted g (fine_st part facts)) -> fits g st part facts fine coarse.
Proof. intros. by constructor. Qed.
Ltac fall := repeat first [apply List.Forall2_nil|apply List.Forall_nil|apply List.Forall2_cons|apply List.Forall_cons|simpl; lia].
Ltac fit := apply fits_b; [split; vm_compute; done|fall|done|fall|done|done| | |done|done|done].
Lemma spread3D_ub : exists st part facts (fine coarse : da Z), fits 0 st part facts fine coarse /\ nonempty_box part /\ grid_nb facts < 2147483648 /\ SpreadCoarseToFine (Some coarse) st (Some fine) part facts = UB.
Proof.
  exists [1; 1; 1], [(0, 1); (0, 1); (0, 1)], [1; 1; 2], (DA true 1 [0; 0]), (DA true 1 [5]). split; [|split; [fall|split; [done|vm_compute; done]]].
  fit; [split; [done|exists 2; done]|split; [done|exists 1; done]].
Qed.
Lemma spread3D_wrong : exists st part facts (fine coarse r : da Z), fits 0 st part facts fine coarse /\ nonempty_box part /\ grid_nb facts < 2147483648 /\ SpreadCoarseToFine (Some coarse) st (Some fine) part facts = Ok r /\ ~ spread 0 st part facts fine coarse r.
Proof.
  exists [1; 1; 1], [(0, 1); (0, 1); (0, 1)], [1; 2; 1], (DA true 1 [0; 0]), (DA true 1 [5]), (DA true 1 [5; 0]). split; [|split; [fall|split; [done|split; [vm_compute; done|]]]].
  - fit; [split; [done|exists 2; done]|split; [done|exists 1; done]].
  - intros (_ & _ & _ & _ & H). specialize (H [0; 1; 0] [0; 0; 0] 0). assert (Some 0 = Some 5) as E; [|done]. apply H.
    + unfold in_ghosted, in_grid. cbn. fall.
    + cbn. lia.
Qed.
Lemma spread_empty_ub : exists st part facts (fine coarse : da Z), fits 0 st part facts fine coarse /\ last_equal facts /\ grid_nb facts < 2147483648 /\ SpreadCoarseToFine (Some coarse) st (Some fine) part facts = UB /\
  CondenseFineToCoarse Z.add st (Some fine) part facts (Some coarse) = Ok coarse.
Proof.
  exists [2], [(1, 1)], [3], (DA true 1 []), (DA true 1 [5; 6]). split; [|split; [done|split; [done|split; vm_compute; done]]].
  fit; [split; [done|exists 0; done]|split; [done|exists 2; done]].
Qed.
Lemma box_unchecked_ub : exists st part facts (fine coarse : da Z), dim_ok st /\ zlen part = zlen st /\ valid_box part /\ zlen facts = zlen st /\ Forall (Z.lt 0) facts /\ da_alloc fine = true /\ da_alloc coarse = true /\ da_wf fine /\ da_wf coarse /\
  da_nc fine = da_nc coarse /\ da_nt coarse = grid_nb st /\ da_nt fine = grid_nb (fine_st part facts) /\
  CondenseFineToCoarse Z.add st (Some fine) part facts (Some coarse) = UB /\ SpreadCoarseToFine (Some coarse) st (Some fine) part facts = UB /\ CondenseFineToCoarseGhost Z.add st (Some fine) part facts (Some coarse) 0 = UB /\ SpreadGhost false (Some coarse) st (Some fine) part facts 0 = UB.
Proof.
  exists [2], [(1, 3)], [1], (DA true 1 [7; 8]), (DA true 1 [5; 6]).
  split; [split; done|]. split; [done|]. split; [fall|]. split; [done|]. split; [fall|]. split; [done|]. split; [done|]. split; [split; [done|exists 2; done]|]. split; [split; [done|exists 2; done]|].
  split; [done|]. split; [done|]. split; [done|]. repeat split; vm_compute; done.
Qed.
