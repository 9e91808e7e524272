(** C70: the types of the cells, cells sorted by type.  C71: numbers of cells per type and profiles. *)
From Coq Require Import QArith.
From Verif Require Import Base DataArray StdModel RenumSpec RenumModel SearchSpec CellTable UmModel UmSpec UcSpec UmProofs10 UcProofs6 TyModel TySpec TyProofs2 TyProofs3 TyProofs4 TyProofs5 TyProofs6 TyProofs7 TyProofs8 TyProofs9 TyProofs10 TyExamples.
Local Open Scope Z_scope.

(** The cells of a type, their number, those among given cells. *)
Theorem C70_cells_of_type m cells t k : stores m cells -> GetCellModel t = Ok k -> 0 <= um_dim m -> giveCellsWithType m t = if um_dim m =? cm_dim k then Ok (ranks_of (kinds cells) t) else Throw.
Proof. exact (give_plain m cells t k). Qed.
Print Assumptions C70_cells_of_type.
Example C70_cells_of_type_mixed : stores mixed mixed_cells /\ giveCellsWithType mixed NORM_TRI3 = Ok [0; 2; 3] /\ giveCellsWithType mixed NORM_TETRA4 = Throw.
Proof. split; [exact mixed_stores|]. split; vm_compute; reflexivity. Qed.
Theorem C70_number_of_type m cells t : stores m cells -> getNumberOfCellsWithType m t = Ok (number (kinds cells) t).
Proof. exact (count_ok m cells t). Qed.
Print Assumptions C70_number_of_type.
Example C70_number_of_type_mixed : getNumberOfCellsWithType mixed NORM_QUAD4 = Ok 2. Proof. vm_compute. reflexivity. Qed.
Theorem C70_kept_by_type m cells t ids : stores m cells -> is_Some (um_coords m) -> (forall v, v ∈ ids -> 0 <= v < zlen cells) ->
  keepCellIdsByType m t ids = Ok (List.filter (fun i => bool_decide (kinds cells @ i = Some t)) ids).
Proof. exact (keep_ok m cells t ids). Qed.
Print Assumptions C70_kept_by_type.
Example C70_kept_by_type_mixed : keepCellIdsByType mixed NORM_TRI3 [3; 1; 0] = Ok [3; 0]. Proof. vm_compute. reflexivity. Qed.

(** Whether the cells of each type follow one another; in a given order of types. *)
Theorem C70_consecutive m cells : stores m cells -> is_Some (um_coords m) -> exists b, checkConsecutiveCellTypes m = Ok b /\ (b = true <-> contiguous (kinds cells)).
Proof. exact (consecutive_ok m cells). Qed.
Print Assumptions C70_consecutive.
Example C70_consecutive_both : stores mixed mixed_cells /\ checkConsecutiveCellTypes mixed = Ok false /\ stores sorted sorted_cells /\ checkConsecutiveCellTypes sorted = Ok true.
Proof. split; [exact mixed_stores|]. split; [vm_compute; reflexivity|]. split; [exact sorted_stores|]. vm_compute. reflexivity. Qed.
Theorem C70_consecutive_in_order m cells order : stores m cells -> is_Some (um_coords m) -> exists b, checkConsecutiveCellTypesAndOrder m order = Ok b /\ (b = true <-> contiguous (kinds cells) /\ in_order order (kinds cells)).
Proof. exact (order_ok m cells order). Qed.
Print Assumptions C70_consecutive_in_order.
Example C70_consecutive_in_order_both : checkConsecutiveCellTypesAndOrder sorted [NORM_TRI3; NORM_QUAD4] = Ok true /\ checkConsecutiveCellTypesAndOrder sorted [NORM_QUAD4; NORM_TRI3] = Ok false /\ checkConsecutiveCellTypesForMEDFileFrmt sorted = Ok true.
Proof. split; [vm_compute; reflexivity|]. split; vm_compute; reflexivity. Qed.

Theorem C70_consecutive_for_med m cells : stores m cells -> is_Some (um_coords m) -> exists b, checkConsecutiveCellTypesForMEDFileFrmt m = Ok b /\ (b = true <-> contiguous (kinds cells) /\ in_order MEDMEM_ORDER (kinds cells)).
Proof. exact (order_ok m cells MEDMEM_ORDER). Qed.
Print Assumptions C70_consecutive_for_med.
Example C70_consecutive_for_med_mixed : checkConsecutiveCellTypesForMEDFileFrmt mixed = Ok false. Proof. vm_compute. reflexivity. Qed.

(** The place of the type of each cell in the order, the number of cells of each type of the order. *)
Theorem C70_levels m cells order : stores m cells -> (forall t, t ∈ kinds cells -> t ∈ order) -> exists lev nbs, getLevArrPerCellTypes m order = Ok (lev, nbs) /\ zlen lev = zlen cells /\ zlen nbs = zlen order /\
  (forall i t, kinds cells @ i = Some t -> exists p, lev @ i = Some p /\ first_pos order t p) /\ (forall t p, first_pos order t p -> nbs @ p = Some (number (kinds cells) t)) /\
  (forall t p, order @ p = Some t -> ~ first_pos order t p -> nbs @ p = Some 0).
Proof. exact (lev_plain m cells order). Qed.
Print Assumptions C70_levels.
Example C70_levels_mixed : getLevArrPerCellTypes mixed [NORM_POLYGON; NORM_QUAD4; NORM_TRI3] = Ok ([2; 1; 2; 2; 1], [0; 2; 3]). Proof. vm_compute. reflexivity. Qed.
(** The numbering that sorts the cells by type, the cells of a same type keeping their order. *)
Theorem C70_sorting_array m cells order : stores m cells -> (forall t, t ∈ kinds cells -> t ∈ order) ->
  exists k, getRenumArrForConsecutiveCellTypesSpec m order = Ok k /\ exists m' sel, renumberCells m k false = Ok m' /\ stores m' sel /\ typed m' sel /\ um_dim m' = um_dim m /\ um_coords m' = um_coords m /\
    moved cells sel k /\ contiguous (kinds sel) /\ in_order order (kinds sel).
Proof. exact (renumArr_ok m cells order). Qed.
Print Assumptions C70_sorting_array.
Example C70_sorting_array_mixed : (forall t, t ∈ kinds mixed_cells -> t ∈ [NORM_QUAD4; NORM_TRI3]) /\ getRenumArrForConsecutiveCellTypesSpec mixed [NORM_QUAD4; NORM_TRI3] = Ok [2; 0; 3; 4; 1].
Proof. split; [intros t H; cbn in H; repeat (apply elem_of_cons in H as [->|H]; [apply elem_of_list_In; cbn; tauto|]); apply elem_of_nil in H; done|]. vm_compute. reflexivity. Qed.
Theorem C70_sorting_unknown_type m cells order t : stores m cells -> t ∈ kinds cells -> t ∉ order -> getRenumArrForConsecutiveCellTypesSpec m order = Throw.
Proof. exact (renumArr_throw m cells order t). Qed.
Print Assumptions C70_sorting_unknown_type.
Example C70_sorting_unknown_type_mixed : getRenumArrForConsecutiveCellTypesSpec mixed [NORM_TRI3] = Throw. Proof. vm_compute. reflexivity. Qed.
Theorem C70_sorted_for_med m cells : stores m cells -> (forall t, t ∈ kinds cells -> t ∈ MEDMEM_ORDER) ->
  exists m' k sel, sortCellsInMEDFileFrmt m = Ok (m', k) /\ stores m' sel /\ typed m' sel /\ um_dim m' = um_dim m /\ um_coords m' = um_coords m /\ moved cells sel k /\ contiguous (kinds sel) /\ in_order MEDMEM_ORDER (kinds sel).
Proof. exact (sort_ok m cells). Qed.
Print Assumptions C70_sorted_for_med.
Example C70_sorted_for_med_mixed : (forall t, t ∈ kinds mixed_cells -> t ∈ MEDMEM_ORDER) /\ exists m', sortCellsInMEDFileFrmt mixed = Ok (m', [0; 3; 1; 2; 4]).
Proof. split; [intros t H; cbn in H; repeat (apply elem_of_cons in H as [->|H]; [apply elem_of_list_In; cbn; tauto|]); apply elem_of_nil in H; done|]. eexists. vm_compute. reflexivity. Qed.
(** Every type of cell is known to the order of the MED files. *)
Theorem C70_med_knows_types t k : GetCellModel t = Ok k -> t <> NORM_ERROR -> t ∈ MEDMEM_ORDER.
Proof. exact (medorder t k). Qed.
Print Assumptions C70_med_knows_types.
Example C70_med_knows_types_hexa : exists k, GetCellModel NORM_HEXA27 = Ok k. Proof. eexists. vm_compute. reflexivity. Qed.

(** Cells put together by type, in the order in which the types are met. *)
Theorem C70_rearranged m cells fuel : stores m cells -> is_Some (um_coords m) -> early (kinds cells) -> (length cells < fuel)%nat ->
  exists m' k sel, rearrange2ConsecutiveCellTypes fuel m = Ok (m', k) /\ stores m' sel /\ typed m' sel /\ um_dim m' = um_dim m /\ um_coords m' = um_coords m /\ moved cells sel k /\ contiguous (kinds sel) /\ in_order (firsts (kinds cells)) (kinds sel).
Proof. exact (rearrange_ok m cells fuel). Qed.
Print Assumptions C70_rearranged.
Example C70_rearranged_mixed : early (kinds mixed_cells) /\ exists m', rearrange2ConsecutiveCellTypes 6 mixed = Ok (m', [0; 3; 1; 2; 4]).
Proof. split; [exact mixed_early|]. eexists. vm_compute. reflexivity. Qed.
(** But it never ends when a type that was already met comes again before all the types are met. *)
Theorem C70_rearranged_endless m cells : stores m cells -> is_Some (um_coords m) -> ~ early (kinds cells) -> forall fuel, rearrange2ConsecutiveCellTypes fuel m = Fuel.
Proof. intros H1 H2 H3 fuel. exact (rearrange_hangs m cells fuel H1 H2 H3). Qed.
Print Assumptions C70_rearranged_endless.
Theorem C70_rearranged_refuted : exists m cells, stores m cells /\ typed m cells /\ has_nodes m 6 /\ um_dim m = 2 /\ (forall c, c ∈ cells -> forall n, n ∈ c.2 -> 0 <= n < 6) /\ forall fuel, rearrange2ConsecutiveCellTypes fuel m = Fuel.
Proof. exact endless_example. Qed.
Print Assumptions C70_rearranged_refuted.

(** The mesh cut each time the type changes. *)
Theorem C70_split_by_type m cells : stores m cells -> 0 <= um_dim m -> exists ms parts, splitByType m = Ok ms /\ cut_by_type cells parts /\ Forall2 (fun p part => stores p part /\ typed p part /\ um_dim p = um_dim m /\ um_coords p = um_coords m) ms parts.
Proof. exact (split_ok m cells). Qed.
Print Assumptions C70_split_by_type.
Example C70_split_by_type_mixed : exists a b c d, splitByType mixed = Ok [a; b; c; d] /\ um_conn c = Some [NORM_TRI3; 3; 5; 4; NORM_TRI3; 3; 4; 1].
Proof. eexists _, _, _, _. vm_compute. split; reflexivity. Qed.

(** The numbers of cells type by type. *)
Theorem C71_distribution m cells : stores m cells -> typed m cells -> contiguous (kinds cells) -> getDistributionOfTypes m = Ok (distribution (kinds cells)).
Proof. exact (distribution_ok m cells). Qed.
Print Assumptions C71_distribution.
Example C71_distribution_sorted : contiguous (kinds sorted_cells) /\ getDistributionOfTypes sorted = Ok [NORM_TRI3; 3; -1; NORM_QUAD4; 2; -1].
Proof. split; [exact sorted_contiguous|]. vm_compute. reflexivity. Qed.
Theorem C71_no_distribution m cells : stores m cells -> typed m cells -> ~ contiguous (kinds cells) -> getDistributionOfTypes m = Throw.
Proof. exact (distribution_throw m cells). Qed.
Print Assumptions C71_no_distribution.
Example C71_no_distribution_mixed : getDistributionOfTypes mixed = Throw. Proof. vm_compute. reflexivity. Qed.

(** The rank of a cell among those of its type. *)
Theorem C71_rank_in_type m cells ids : stores m cells -> typed m cells -> is_Some (um_coords m) -> (forall v, v ∈ ids -> 0 <= v < zlen cells) ->
  exists r, convertCellArrayPerGeoType m ids = Ok r /\ Forall2 (fun v x => exists t, kinds cells @ v = Some t /\ x = rank_among (kinds cells) t v) ids r.
Proof. exact (convert_ok m cells ids). Qed.
Print Assumptions C71_rank_in_type.
Example C71_rank_in_type_mixed : convertCellArrayPerGeoType mixed [4; 3; 0; 3] = Ok [1; 2; 0; 2]. Proof. vm_compute. reflexivity. Qed.

(** All the cells but those of a type that are not listed. *)
Theorem C71_specified_cells m cells t ids : stores m cells -> typed m cells -> 0 <= um_dim m -> contiguous (kinds cells) -> (forall v, v ∈ ids -> 0 <= v < number (kinds cells) t) ->
  exists m' sel, keepSpecifiedCells m t ids = Ok m' /\ picked cells (kept (kinds cells) t ids) sel /\ stores m' sel /\ typed m' sel /\ um_dim m' = um_dim m /\ um_coords m' = um_coords m.
Proof. exact (keepSpecified_ok m cells t ids). Qed.
Print Assumptions C71_specified_cells.
Theorem C71_specified_cells_refused m cells t ids : stores m cells -> typed m cells -> 0 <= um_dim m -> ~ (contiguous (kinds cells) /\ forall v, v ∈ ids -> 0 <= v < number (kinds cells) t) -> keepSpecifiedCells m t ids = Throw.
Proof. exact (keepSpecified_throw m cells t ids). Qed.
Print Assumptions C71_specified_cells_refused.
Example C71_specified_cells_sorted : kept (kinds sorted_cells) NORM_TRI3 [2; 0] = [2; 0; 3; 4] /\ (exists m', keepSpecifiedCells sorted NORM_TRI3 [2; 0] = Ok m' /\ um_connI m' = Some [0; 4; 8; 13; 18]) /\ keepSpecifiedCells sorted NORM_TRI3 [3] = Throw.
Proof. split; [vm_compute; reflexivity|]. split; [eexists; split; vm_compute; reflexivity|vm_compute; reflexivity]. Qed.

(** The slot of each value between bounds. *)
Theorem C71_slots vals bounds : nondecreasing bounds -> 2 <= zlen bounds -> (forall v, v ∈ vals -> exists p, in_slot bounds v p) ->
  exists slots rests used, splitByValueRange (vec vals) bounds = Ok (slots, rests, used) /\ zlen slots = zlen vals /\ zlen rests = zlen vals /\ increasing used /\ (forall p, p ∈ used <-> p ∈ slots) /\
    forall i v, vals @ i = Some v -> exists p a, slots @ i = Some p /\ in_slot bounds v p /\ bounds @ p = Some a /\ rests @ i = Some (v - a).
Proof. exact (byRange_ok vals bounds). Qed.
Print Assumptions C71_slots.
Theorem C71_slots_refused vals bounds : nondecreasing bounds -> (zlen bounds < 2 \/ exists v, v ∈ vals /\ forall p, ~ in_slot bounds v p) -> splitByValueRange (vec vals) bounds = Throw.
Proof. exact (byRange_throw vals bounds). Qed.
Print Assumptions C71_slots_refused.
Example C71_slots_some : splitByValueRange (vec [6; 5; 0; 3; 2; 7]) [0; 4; 4; 9] = Ok ([2; 2; 0; 0; 0; 2], [2; 1; 0; 3; 2; 3], [0; 2]) /\ splitByValueRange (vec [9]) [0; 4; 9] = Throw /\ splitByValueRange (vec [-1]) [0; 4; 9] = Throw.
Proof. split; [vm_compute; reflexivity|]. split; vm_compute; reflexivity. Qed.

(** A profile split type by type. *)
Theorem C71_profile_split m cells pfl smart : stores m cells -> cells <> [] -> contiguous (kinds cells) -> (forall v, v ∈ pfl -> 0 <= v < zlen cells) ->
  let ts := present (kinds cells) pfl in let q := pieces (kinds cells) pfl smart 0 ts in splitProfilePerType m (vec pfl) smart = Ok (q.1, entries (kinds cells) pfl <$> ts, q.2).
Proof. exact (profile_ok m cells pfl smart). Qed.
Print Assumptions C71_profile_split.
Theorem C71_profile_refused m cells pfl smart : stores m cells -> ~ (cells <> [] /\ contiguous (kinds cells) /\ forall v, v ∈ pfl -> 0 <= v < zlen cells) -> splitProfilePerType m (vec pfl) smart = Throw.
Proof. exact (profile_throw m cells pfl smart). Qed.
Print Assumptions C71_profile_refused.
Example C71_profile_split_sorted : splitProfilePerType sorted (vec [3; 0; 4; 2]) true = Ok ([NORM_TRI3; 2; 0; NORM_QUAD4; 2; -1], [[1; 3]; [0; 2]], [[0; 2]]) /\
  splitProfilePerType sorted (vec [3; 0; 4; 2]) false = Ok ([NORM_TRI3; 2; 0; NORM_QUAD4; 2; 1], [[1; 3]; [0; 2]], [[0; 2]; [0; 1]]) /\ splitProfilePerType sorted (vec [5]) true = Throw.
Proof. split; [vm_compute; reflexivity|]. split; vm_compute; reflexivity. Qed.

(** The cells that a code and its profiles describe. *)
Theorem C71_code m cells code profs parts : stores m cells -> typed m cells -> is_Some (um_coords m) -> contiguous (kinds cells) ->
  describes (kinds cells) code profs parts -> parts.*1 `sublist_of` firsts (kinds cells) -> parts <> [] ->
  exists r, checkTypeConsistencyAndContig m code profs = Ok r /\ match r with None => described (kinds cells) parts = seqZ 0 (zlen cells) | Some x => x = Some <$> described (kinds cells) parts end.
Proof. exact (code_ok m cells code profs parts). Qed.
Print Assumptions C71_code.
Example C71_code_sorted : describes (kinds sorted_cells) [NORM_TRI3; 2; 0; NORM_QUAD4; 2; -1] [Some [2; 0]] [(NORM_TRI3, [2; 0]); (NORM_QUAD4, [0; 1])] /\ checkTypeConsistencyAndContig sorted [NORM_TRI3; 2; 0; NORM_QUAD4; 2; -1] [Some [2; 0]] = Ok (Some [Some 2; Some 0; Some 3; Some 4]).
Proof. split; [exact sorted_described|]. vm_compute. reflexivity. Qed.
(** A profile split type by type is found again, its cells sorted by type. *)
Theorem C71_profile_back m cells pfl smart : stores m cells -> typed m cells -> is_Some (um_coords m) -> contiguous (kinds cells) -> pfl <> [] -> (forall v, v ∈ pfl -> 0 <= v < zlen cells) ->
  exists code ins ids r, splitProfilePerType m (vec pfl) smart = Ok (code, ins, ids) /\ checkTypeConsistencyAndContig m code (Some <$> ids) = Ok r /\ concat ins ≡ₚ seqZ 0 (zlen pfl) /\
    match r with None => omap (fun j => pfl @ j) (concat ins) = seqZ 0 (zlen cells) | Some x => x = Some <$> omap (fun j => pfl @ j) (concat ins) end.
Proof. exact (profile_back m cells pfl smart). Qed.
Print Assumptions C71_profile_back.
Example C71_profile_back_sorted : checkTypeConsistencyAndContig sorted [NORM_TRI3; 2; 0; NORM_QUAD4; 2; -1] [Some [0; 2]] = Ok (Some [Some 0; Some 2; Some 3; Some 4]). Proof. vm_compute. reflexivity. Qed.
(** Codes that are refused: not three numbers per type; a type twice or that is not in the mesh; without profile types in another order than in the mesh, or a mesh not grouped by type; a profile that cannot be used. *)
Theorem C71_code_shape_refused m code profs : zlen code = 0 \/ Z.rem (zlen code) 3 <> 0 -> checkTypeConsistencyAndContig m code profs = Throw.
Proof. exact (shape_throw m code profs). Qed.
Print Assumptions C71_code_shape_refused.
Theorem C71_code_types_refused m cells code ts cs profs : typed m cells -> zlen code = 3 * zlen ts -> zlen cs = zlen ts ->
  (forall k, 0 <= k < zlen ts -> code @ (3 * k) = ts @ k /\ code @ (3 * k + 1) = cs @ k) ->
  ts <> [] -> ~ (NoDup ts /\ forall t, t ∈ ts -> t ∈ kinds cells) -> checkTypeConsistencyAndContig m code profs = Throw.
Proof. exact (types_throw m cells code ts cs profs). Qed.
Print Assumptions C71_code_types_refused.
Theorem C71_code_order_refused m cells code ts cs profs : stores m cells -> typed m cells -> zlen code = 3 * zlen ts -> zlen cs = zlen ts ->
  (forall k, 0 <= k < zlen ts -> code @ (3 * k) = ts @ k /\ code @ (3 * k + 1) = cs @ k) ->
  ts <> [] -> is_Some (um_coords m) -> (forall k, 0 <= k < zlen ts -> code @ (3 * k + 2) = Some (-1)) -> ~ (contiguous (kinds cells) /\ in_order ts (kinds cells)) -> checkTypeConsistencyAndContig m code profs = Throw.
Proof. exact (order_throw m cells code ts cs profs). Qed.
Print Assumptions C71_code_order_refused.
Theorem C71_code_profile_refused m cells code ts cs profs : stores m cells -> typed m cells -> zlen code = 3 * zlen ts -> zlen cs = zlen ts ->
  (forall k, 0 <= k < zlen ts -> code @ (3 * k) = ts @ k /\ code @ (3 * k + 1) = cs @ k) ->
  forall k t id, ts @ k = Some t -> code @ (3 * k + 2) = Some id -> bad_profile (kinds cells) profs t id -> contiguous (kinds cells) -> ts `sublist_of` firsts (kinds cells) -> (forall n, n ∈ cs -> 0 <= n) ->
  (forall k t n id, ts @ k = Some t -> cs @ k = Some n -> code @ (3 * k + 2) = Some id -> (id = -1 -> n = number (kinds cells) t) /\ (forall ids, profs @ id = Some (Some ids) -> n = zlen ids)) -> checkTypeConsistencyAndContig m code profs = Throw.
Proof. exact (profile_throws m cells code ts cs profs). Qed.
Print Assumptions C71_code_profile_refused.
Example C71_code_refused_some : checkTypeConsistencyAndContig sorted [] [] = Throw /\ checkTypeConsistencyAndContig sorted [NORM_TRI3; 3] [] = Throw /\
  checkTypeConsistencyAndContig sorted [NORM_TRI3; 3; -1; NORM_TRI3; 3; -1] [] = Throw /\ checkTypeConsistencyAndContig sorted [NORM_POLYGON; 3; -1] [] = Throw /\
  checkTypeConsistencyAndContig sorted [NORM_QUAD4; 2; -1; NORM_TRI3; 3; -1] [] = Throw /\ checkTypeConsistencyAndContig mixed [NORM_QUAD4; 2; -1] [] = Throw /\
  checkTypeConsistencyAndContig sorted [NORM_TRI3; 1; 0] [] = Throw /\ checkTypeConsistencyAndContig sorted [NORM_TRI3; 1; 0] [Some [3]] = Throw /\ bad_profile (kinds sorted_cells) [Some [3]] NORM_TRI3 0.
Proof. do 8 (split; [vm_compute; reflexivity|]). split; [discriminate|]. do 3 right. exists [3], 3. split; [reflexivity|]. split; [apply elem_of_list_singleton; reflexivity|]. change (number (kinds sorted_cells) NORM_TRI3) with 3. intros [_ H]. discriminate H. Qed.
(** The numbers of cells of the code are not compared with those of the mesh: a wrong number goes unseen, or leaves elements of the result unwritten, or makes the code write beyond the end of the result. *)
Theorem C71_code_numbers_refuted : exists m cells, stores m cells /\ typed m cells /\ is_Some (um_coords m) /\ contiguous (kinds cells) /\ number (kinds cells) NORM_TRI3 = 3 /\
  checkTypeConsistencyAndContig m [NORM_TRI3; 100; -1; NORM_QUAD4; 2; -1] [] = Ok None /\
  checkTypeConsistencyAndContig m [NORM_TRI3; 5; -1] [] = Ok (Some [Some 0; Some 1; Some 2; None; None]) /\
  checkTypeConsistencyAndContig m [NORM_TRI3; 1; -1] [] = UB.
Proof. exact numbers_example. Qed.
Print Assumptions C71_code_numbers_refuted.
(** With a profile the order of the types is not checked: the search of the second type starts beyond the last cell. *)
Theorem C71_code_order_refuted : exists m cells, stores m cells /\ typed m cells /\ is_Some (um_coords m) /\ contiguous (kinds cells) /\
  describes (kinds cells) [NORM_QUAD4; 1; 0; NORM_TRI3; 1; 0] [Some [0]] [(NORM_QUAD4, [0]); (NORM_TRI3, [0])] /\
  checkTypeConsistencyAndContig m [NORM_QUAD4; 1; 0; NORM_TRI3; 1; 0] [Some [0]] = UB.
Proof. exact order_example. Qed.
Print Assumptions C71_code_order_refuted.
