(** C44: transfer of cell fields between a coarse grid and a refined patch. *)
From Verif Require Import Base DataArray SearchSpec StdProofs StrModel StrSpec AmrModel AmrSpec AmrProofs5 AmrProofs7 AmrProofs8 AmrProofs9.

(** Condensing: each coarse cell under the patch becomes the sum of its children, the other cells are unchanged. *)
Theorem C44_condense {A} (plus : A -> A -> A) st part facts (fine coarse : da A) : fits 0 st part facts fine coarse -> grid_nb facts < 2147483648 ->
  exists r, CondenseFineToCoarse plus st (Some fine) part facts (Some coarse) = Ok r /\ condensed plus 0 st part facts fine coarse r.
Proof. exact (condense_ok plus st part facts fine coarse). Qed.
Print Assumptions C44_condense.
Theorem C44_condense_ghost {A} (plus : A -> A -> A) g st part facts (fine coarse : da A) : 0 <= g -> fits g st part facts fine coarse ->
  exists r, CondenseFineToCoarseGhost plus st (Some fine) part facts (Some coarse) g = Ok r /\ condensed plus g st part facts fine coarse r.
Proof. exact (condense_ghost plus g st part facts fine coarse). Qed.
Print Assumptions C44_condense_ghost.
(** Hence the total over the patch is conserved. *)
Theorem C44_conserved st part facts (fine coarse : da Z) : fits 0 st part facts fine coarse -> grid_nb facts < 2147483648 ->
  exists r, CondenseFineToCoarse Z.add st (Some fine) part facts (Some coarse) = Ok r /\
    forall c cs xs, 0 <= c < da_nc coarse -> enumerates (covered 0 st part) cs -> enumerates (patch 0 part facts) xs -> total r c cs = total fine c xs.
Proof. exact (conserve_plain st part facts fine coarse). Qed.
Print Assumptions C44_conserved.
Theorem C44_conserved_ghost g st part facts (fine coarse : da Z) : 0 <= g -> fits g st part facts fine coarse ->
  exists r, CondenseFineToCoarseGhost Z.add st (Some fine) part facts (Some coarse) g = Ok r /\
    forall c cs xs, 0 <= c < da_nc coarse -> enumerates (covered g st part) cs -> enumerates (patch g part facts) xs -> total r c cs = total fine c xs.
Proof. exact (conserve_ghost g st part facts fine coarse). Qed.
Print Assumptions C44_conserved_ghost.
(** Spreading: each fine cell receives the value of its parent; a ghost cell receives the one of the coarse cell beyond the end of the patch.
    Without ghost zone this needs a nonempty patch and, in dimension 3, equal second and third factors. *)
Theorem C44_spread {A} st part facts (fine coarse : da A) : fits 0 st part facts fine coarse -> grid_nb facts < 2147483648 -> nonempty_box part -> last_equal facts ->
  exists r, SpreadCoarseToFine (Some coarse) st (Some fine) part facts = Ok r /\ spread 0 st part facts fine coarse r.
Proof. exact (spread_plain st part facts fine coarse). Qed.
Print Assumptions C44_spread.
Theorem C44_spread_ghost {A} g st part facts (fine coarse : da A) : 0 <= g -> fits g st part facts fine coarse ->
  exists r, SpreadGhost false (Some coarse) st (Some fine) part facts g = Ok r /\ spread g st part facts fine coarse r.
Proof. exact (spread_ghost g st part facts fine coarse). Qed.
Print Assumptions C44_spread_ghost.
Theorem C44_spread_zone {A} g st part facts (fine coarse : da A) : 0 <= g -> fits g st part facts fine coarse ->
  exists r, SpreadGhost true (Some coarse) st (Some fine) part facts g = Ok r /\ zone_spread g st part facts fine coarse r.
Proof. exact (spread_zone g st part facts fine coarse). Qed.
Print Assumptions C44_spread_zone.
(** Every position of the fine array has a source: the theorems above describe the whole array. *)
Theorem C44_source_total {A} g st part facts (fine coarse : da A) q : 0 <= g -> fits g st part facts fine coarse -> in_grid (ghosted g (fine_st part facts)) q ->
  exists x cell, q = moved g x /\ source_of part facts cell x.
Proof. exact (fun Hg Hf => source_exists g st part facts q Hg (fits_okp _ _ _ _ _ _ Hf)). Qed.
Print Assumptions C44_source_total.
(** Spreading then condensing multiplies by the number of children. *)
Theorem C44_spread_condense {A} (plus : A -> A -> A) st part facts (fine coarse : da A) : fits 0 st part facts fine coarse -> grid_nb facts < 2147483648 -> nonempty_box part -> last_equal facts ->
  exists fine' r, SpreadCoarseToFine (Some coarse) st (Some fine) part facts = Ok fine' /\ CondenseFineToCoarse plus st (Some fine') part facts (Some coarse) = Ok r /\
    (forall cell c v, in_box part cell -> ij coarse (tuple_of 0 st cell) c = Some v -> ij r (tuple_of 0 st cell) c = sum_up plus (replicate (Z.to_nat (grid_nb facts)) v)) /\
    (forall i c, (forall cell, in_box part cell -> i <> tuple_of 0 st cell) -> ij r i c = ij coarse i c).
Proof. exact (round_trip_plain plus st part facts fine coarse). Qed.
Print Assumptions C44_spread_condense.
Theorem C44_spread_condense_ghost g st part facts (fine coarse : da Z) : 0 <= g -> fits g st part facts fine coarse ->
  exists fine' r, SpreadGhost false (Some coarse) st (Some fine) part facts g = Ok fine' /\ CondenseFineToCoarseGhost Z.add st (Some fine') part facts (Some coarse) g = Ok r /\
    (forall cell c v, in_box part cell -> ij coarse (tuple_of g st cell) c = Some v -> ij r (tuple_of g st cell) c = Some (grid_nb facts * v)) /\
    (forall i c, (forall cell, in_box part cell -> i <> tuple_of g st cell) -> ij r i c = ij coarse i c).
Proof. exact (round_trip_Z g st part facts fine coarse). Qed.
Print Assumptions C44_spread_condense_ghost.
(** What is refused. *)
Theorem C44_refused {A} (plus : A -> A -> A) g st part facts (fine coarse : option (da A)) :
  g < 0 \/ zlen st <> zlen part \/ zlen st <> zlen facts \/ fine = None \/ coarse = None \/ (exists d, fine = Some d /\ da_alloc d = false) \/ (exists d, coarse = Some d /\ da_alloc d = false) ->
  CondenseFineToCoarseGhost plus st fine part facts coarse g = Throw /\ (forall zone, SpreadGhost zone coarse st fine part facts g = Throw) /\
  (0 <= g -> CondenseFineToCoarse plus st fine part facts coarse = Throw /\ SpreadCoarseToFine coarse st fine part facts = Throw).
Proof. exact (refused_shape plus g st part facts fine coarse). Qed.
Print Assumptions C44_refused.
Theorem C44_sizes_refused {A} (plus : A -> A -> A) st part facts (fine coarse : da A) : dim_ok st -> box_in st part -> zlen facts = zlen st -> Forall (Z.lt 0) facts -> grid_nb facts < 2147483648 ->
  da_nc fine <> da_nc coarse \/ da_nt coarse <> grid_nb st \/ da_nt fine <> grid_nb (fine_st part facts) ->
  CondenseFineToCoarse plus st (Some fine) part facts (Some coarse) = Throw /\ (nonempty_box part -> SpreadCoarseToFine (Some coarse) st (Some fine) part facts = Throw).
Proof. exact (refused_plain plus st part facts fine coarse). Qed.
Print Assumptions C44_sizes_refused.
Theorem C44_sizes_refused_ghost {A} (plus : A -> A -> A) g st part facts (fine coarse : da A) : 0 <= g -> dim_ok st -> box_in st part -> zlen facts = zlen st -> Forall (Z.lt 0) facts ->
  da_nc fine <> da_nc coarse \/ da_nt coarse <> grid_nb (ghosted g st) \/ da_nt fine <> grid_nb (ghosted g (fine_st part facts)) ->
  CondenseFineToCoarseGhost plus st (Some fine) part facts (Some coarse) g = Throw /\ (forall zone, SpreadGhost zone (Some coarse) st (Some fine) part facts g = Throw).
Proof. exact (refused_ghost plus g st part facts fine coarse). Qed.
Print Assumptions C44_sizes_refused_ghost.

(** Two patches of a 4 x 3 grid, factors (2, 3); then the same with one ghost layer. *)
Definition ex_coarse : da Z := DA true 1 [1; 2; 3; 4; 5; 6; 7; 8; 9; 10; 11; 12].
Definition ex_fine : da Z := DA true 1 [1; 10; 100; 1000; 2; 20; 200; 2000; 3; 30; 300; 3000].
Example C44_condense_case : fits 0 [4; 3] [(1, 3); (1, 2)] [2; 3] ex_fine ex_coarse /\ nonempty_box [(1, 3); (1, 2)] /\ last_equal [2; 3] /\
  CondenseFineToCoarse Z.add [4; 3] (Some ex_fine) [(1, 3); (1, 2)] [2; 3] (Some ex_coarse) = Ok (DA true 1 [1; 2; 3; 4; 5; 66; 6600; 8; 9; 10; 11; 12]) /\
  SpreadCoarseToFine (Some ex_coarse) [4; 3] (Some ex_fine) [(1, 3); (1, 2)] [2; 3] = Ok (DA true 1 [6; 6; 7; 7; 6; 6; 7; 7; 6; 6; 7; 7]).
Proof.
  split; [|split; [fall|split; [done|split; vm_compute; done]]]. fit; split; try done; exists 12; done.
Qed.
Definition ex_coarse_g : da Z := DA true 1 (seqZ 1 12).
Definition ex_fine_g : da Z := DA true 1 (seqZ 100 24).
Example C44_ghost_case : fits 1 [2; 1] [(0, 2); (0, 1)] [2; 2] ex_fine_g ex_coarse_g /\
  CondenseFineToCoarseGhost Z.add [2; 1] (Some ex_fine_g) [(0, 2); (0, 1)] [2; 2] (Some ex_coarse_g) 1 = Ok (DA true 1 [1; 2; 3; 4; 5; 442; 450; 8; 9; 10; 11; 12]) /\
  SpreadGhost false (Some ex_coarse_g) [2; 1] (Some ex_fine_g) [(0, 2); (0, 1)] [2; 2] 1 = Ok (DA true 1 [1; 2; 2; 3; 3; 4; 5; 6; 6; 7; 7; 8; 5; 6; 6; 7; 7; 8; 9; 10; 10; 11; 11; 12]) /\
  SpreadGhost true (Some ex_coarse_g) [2; 1] (Some ex_fine_g) [(0, 2); (0, 1)] [2; 2] 1 = Ok (DA true 1 [1; 2; 2; 3; 3; 4; 5; 107; 108; 109; 110; 8; 5; 113; 114; 115; 116; 8; 9; 10; 10; 11; 11; 12]).
Proof.
  split; [|split; [|split]; vm_compute; done]. fit; split; try done; [exists 24|exists 12]; done.
Qed.
Example C44_conserved_case : enumerates (covered 1 [2; 1] [(0, 2); (0, 1)]) [5; 6] /\ enumerates (patch 1 [(0, 2); (0, 1)] [2; 2]) [7; 8; 9; 10; 13; 14; 15; 16] /\
  total (DA true 1 [1; 2; 3; 4; 5; 442; 450; 8; 9; 10; 11; 12]) 0 [5; 6] = 892 /\ total ex_fine_g 0 [7; 8; 9; 10; 13; 14; 15; 16] = 892.
Proof.
  split; [|split; [|split; vm_compute; done]].
  - split; [apply increasing_SS; repeat constructor; lia|]. intros i. rewrite !elem_of_cons, elem_of_nil. split.
    + intros [->|[->|[]]]; [exists [0; 0]|exists [1; 0]]; (split; [fall|done]).
    + intros (cell & Hc & ->). inversion Hc as [|? x ? ? Hx Hc1]; subst. inversion Hc1 as [|? y ? ? Hy Hc2]; subst. inversion Hc2; subst. simpl in *. cbn. lia.
  - split; [apply increasing_SS; repeat constructor; lia|]. intros i. rewrite !elem_of_cons, elem_of_nil. split.
    + intros [->|[->|[->|[->|[->|[->|[->|[->|[]]]]]]]]]; [exists [0; 0]|exists [1; 0]|exists [2; 0]|exists [3; 0]|exists [0; 1]|exists [1; 1]|exists [2; 1]|exists [3; 1]]; (split; [fall|done]).
    + intros (cell & Hc & ->). inversion Hc as [|? x ? ? Hx Hc1]; subst. inversion Hc1 as [|? y ? ? Hy Hc2]; subst. inversion Hc2; subst. simpl in *. cbn. lia.
Qed.

(** SpreadCoarseToFine in dimension 3 takes the third factor for the second one: it writes beyond the fine array, or leaves part of it. *)
Theorem C44_spread3D_refuted : exists st part facts (fine coarse : da Z), fits 0 st part facts fine coarse /\ nonempty_box part /\ grid_nb facts < 2147483648 /\ SpreadCoarseToFine (Some coarse) st (Some fine) part facts = UB.
Proof. exact spread3D_ub. Qed.
Print Assumptions C44_spread3D_refuted.
Theorem C44_spread3D_values_refuted : exists st part facts (fine coarse r : da Z), fits 0 st part facts fine coarse /\ nonempty_box part /\ grid_nb facts < 2147483648 /\ SpreadCoarseToFine (Some coarse) st (Some fine) part facts = Ok r /\ ~ spread 0 st part facts fine coarse r.
Proof. exact spread3D_wrong. Qed.
Print Assumptions C44_spread3D_values_refuted.
(** On an empty patch SpreadCoarseToFine divides by zero, where CondenseFineToCoarse does nothing. *)
Theorem C44_spread_empty_refuted : exists st part facts (fine coarse : da Z), fits 0 st part facts fine coarse /\ last_equal facts /\ grid_nb facts < 2147483648 /\ SpreadCoarseToFine (Some coarse) st (Some fine) part facts = UB /\
  CondenseFineToCoarse Z.add st (Some fine) part facts (Some coarse) = Ok coarse.
Proof. exact spread_empty_ub. Qed.
Print Assumptions C44_spread_empty_refuted.
(** No function checks that the patch lies in the coarse grid: with arrays of the expected sizes they go out of bounds. *)
Theorem C44_box_unchecked_refuted : exists st part facts (fine coarse : da Z), dim_ok st /\ zlen part = zlen st /\ valid_box part /\ zlen facts = zlen st /\ Forall (Z.lt 0) facts /\ da_alloc fine = true /\ da_alloc coarse = true /\ da_wf fine /\ da_wf coarse /\
  da_nc fine = da_nc coarse /\ da_nt coarse = grid_nb st /\ da_nt fine = grid_nb (fine_st part facts) /\
  CondenseFineToCoarse Z.add st (Some fine) part facts (Some coarse) = UB /\ SpreadCoarseToFine (Some coarse) st (Some fine) part facts = UB /\ CondenseFineToCoarseGhost Z.add st (Some fine) part facts (Some coarse) 0 = UB /\ SpreadGhost false (Some coarse) st (Some fine) part facts 0 = UB.
Proof. exact box_unchecked_ub. Qed.
Print Assumptions C44_box_unchecked_refuted.
