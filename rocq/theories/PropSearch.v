(** C13, C14, C51, C52. *)
From Verif Require Import Base DataArray RenumSpec StdModel SearchSpec SearchModel StdProofs SearchProofs SearchProofs2.

(** ** C13 *)
Theorem C13_findIdsEqual : forall d, da_alloc d = true -> da_nc d = 1 ->
  forall val, exists r, findIdsEqual val d = Ok r /\ ids_where (fun v => v = val) (da_vals d) r.
Proof. exact findIdsEqual_ok. Qed.
Print Assumptions C13_findIdsEqual.
Theorem C13_findIdsNotEqual : forall d, da_alloc d = true -> da_nc d = 1 ->
  forall val, exists r, findIdsNotEqual val d = Ok r /\ ids_where (fun v => v <> val) (da_vals d) r.
Proof. exact findIdsNotEqual_ok. Qed.
Print Assumptions C13_findIdsNotEqual.
Theorem C13_findIdsEqualList : forall d, da_nc d = 1 ->
  forall vals, exists r, findIdsEqualList vals d = Ok r /\ ids_where (fun v => v ∈ vals) (da_vals d) r.
Proof. exact findIdsEqualList_ok. Qed.
Print Assumptions C13_findIdsEqualList.
Theorem C13_findIdsNotEqualList : forall d, da_nc d = 1 ->
  forall vals, exists r, findIdsNotEqualList vals d = Ok r /\ ids_where (fun v => v ∉ vals) (da_vals d) r.
Proof. exact findIdsNotEqualList_ok. Qed.
Print Assumptions C13_findIdsNotEqualList.
Theorem C13_findIds_order : forall d, da_alloc d = true -> da_nc d = 1 ->
  (exists r, findIdsStrictlyNegative d = Ok r /\ ids_where (fun v => v < 0) (da_vals d) r) /\
  forall val,
  (exists r, findIdsGreaterOrEqualTo val d = Ok r /\ ids_where (fun v => val <= v) (da_vals d) r) /\
  (exists r, findIdsGreaterThan val d = Ok r /\ ids_where (fun v => val < v) (da_vals d) r) /\
  (exists r, findIdsLowerOrEqualTo val d = Ok r /\ ids_where (fun v => v <= val) (da_vals d) r) /\
  (exists r, findIdsLowerThan val d = Ok r /\ ids_where (fun v => v < val) (da_vals d) r).
Proof. exact findIds_order. Qed.
Print Assumptions C13_findIds_order.
Theorem C13_findIdsInRange : forall d, da_alloc d = true -> da_nc d = 1 -> forall vmin vmax,
  exists r, findIdsInRange vmin vmax d = Ok r /\ ids_where (fun v => vmin <= v < vmax) (da_vals d) r.
Proof. exact findIdsInRange_ok. Qed.
Print Assumptions C13_findIdsInRange.
Theorem C13_findIdsNotInRange : forall d, da_alloc d = true -> da_nc d = 1 -> forall vmin vmax,
  exists r, findIdsNotInRange vmin vmax d = Ok r /\ ids_where (fun v => v < vmin \/ vmax <= v) (da_vals d) r.
Proof. exact findIdsNotInRange_ok. Qed.
Print Assumptions C13_findIdsNotInRange.
Theorem C13_findIdFirstEqual : forall d, da_alloc d = true -> da_nc d = 1 ->
  forall val, exists i, findIdFirstEqual val d = Ok i /\ first_where (fun v => v = val) (da_vals d) i.
Proof. exact findIdFirstEqual_ok. Qed.
Print Assumptions C13_findIdFirstEqual.
Theorem C13_findIdFirstEqualAny : forall d, da_alloc d = true -> da_nc d = 1 ->
  forall vals, exists i, findIdFirstEqualAny vals d = Ok i /\ first_where (fun v => v ∈ vals) (da_vals d) i.
Proof. exact findIdFirstEqualAny_ok. Qed.
Print Assumptions C13_findIdFirstEqualAny.
Theorem C13_count : forall d, da_alloc d = true -> da_nc d = 1 -> forall val,
  exists r, findIdsEqual val d = Ok r /\ countValue val d = Ok (zlen r).
Proof. exact count_is_findIds. Qed.
Print Assumptions C13_count.
Theorem C13_partition : forall d, da_alloc d = true -> da_nc d = 1 ->
  (forall val, exists r s, findIdsEqual val d = Ok r /\ findIdsNotEqual val d = Ok s /\ r ++ s ≡ₚ seqZ 0 (da_nt d)) /\
  (forall vals, exists r s, findIdsEqualList vals d = Ok r /\ findIdsNotEqualList vals d = Ok s /\ r ++ s ≡ₚ seqZ 0 (da_nt d)) /\
  (forall vmin vmax, exists r s, findIdsInRange vmin vmax d = Ok r /\ findIdsNotInRange vmin vmax d = Ok s /\ r ++ s ≡ₚ seqZ 0 (da_nt d)).
Proof. exact findIds_partition. Qed.
Print Assumptions C13_partition.
Theorem C13_bad_shape : forall d, bad_shape d -> forall v w vs,
  findIdsEqual v d = Throw /\ findIdsNotEqual v d = Throw /\ findIdsInRange v w d = Throw /\ findIdsNotInRange v w d = Throw /\
  findIdFirstEqual v d = Throw /\ findIdFirstEqualAny vs d = Throw /\ countValue v d = Throw.
Proof. exact findIds_bad_shape. Qed.
Print Assumptions C13_bad_shape.

Example C13_example : findIdsInRange 2 5 (vec [7;2;4;5;3;1]) = Ok [1;2;4] /\ findIdsNotInRange 2 5 (vec [7;2;4;5;3;1]) = Ok [0;3;5] /\
  findIdsEqualList [5;7;9] (vec [7;2;4;5;3;1]) = Ok [0;3] /\ findIdFirstEqual 5 (vec [7;2;4;5;3;1]) = Ok 3 /\ findIdFirstEqual 6 (vec [7;2;4;5;3;1]) = Ok (-1).
Proof. vm_compute. auto. Qed.

(** ** C14 *)
Theorem C14_findIdSequence : forall d, da_alloc d = true -> da_nc d = 1 -> forall vals, vals <> [] ->
  exists i, findIdSequence vals d = Ok i /\
    ((i = -1 /\ forall k, ~ occurs_at vals (da_vals d) k) \/ (occurs_at vals (da_vals d) i /\ forall k, k < i -> ~ occurs_at vals (da_vals d) k)).
Proof. exact findIdSequence_ok. Qed.
Print Assumptions C14_findIdSequence.
Theorem C14_findIdsEqualTuple : forall d tupl, da_alloc d = true -> da_wf d -> da_nc d = zlen tupl -> 0 < zlen tupl ->
  exists r, findIdsEqualTuple tupl d = Ok r /\ ids_where (fun t => t = tupl) (tuples d) r.
Proof. exact findIdsEqualTuple_ok. Qed.
Print Assumptions C14_findIdsEqualTuple.
Theorem C14_findIdFirstEqualTuple : forall d tupl, da_alloc d = true -> da_wf d -> da_nc d = zlen tupl -> 0 < zlen tupl ->
  exists i, findIdFirstEqualTuple tupl d = Ok i /\ first_where (fun t => t = tupl) (tuples d) i.
Proof. exact findIdFirstEqualTuple_ok. Qed.
Print Assumptions C14_findIdFirstEqualTuple.
(** The occurrence of (3,3) straddling the first two tuples is ignored. *)
Example C14_example : let d := DA true 2 [1;3;3;3;2;3;3;3] in
  findIdsEqualTuple [3;3] d = Ok [1;3] /\ findIdFirstEqualTuple [3;3] d = Ok 1 /\ findIdSequence [3;3;2] (vec [1;3;3;3;2;3]) = Ok 2.
Proof. vm_compute. auto. Qed.

(** ** C51 *)
Theorem C51_isIota : forall d, da_alloc d = true -> da_nc d = 1 ->
  forall n, exists b, isIota n d = Ok b /\ (b = true <-> 0 <= n /\ da_vals d = seqZ 0 n).
Proof. exact isIota_ok. Qed.
Print Assumptions C51_isIota.
Theorem C51_isUniform : forall d, da_alloc d = true -> da_nc d = 1 ->
  forall val, exists b, isUniform val d = Ok b /\ (b = true <-> forall v, v ∈ da_vals d -> v = val).
Proof. exact isUniform_ok. Qed.
Print Assumptions C51_isUniform.
Theorem C51_checkUniformAndGuess : forall d, da_alloc d = true -> da_nc d = 1 ->
  (exists r, checkUniformAndGuess d = Ok r /\ da_vals d <> [] /\ forall v, v ∈ da_vals d -> v = r) \/
  (checkUniformAndGuess d = Throw /\ (da_vals d = [] \/ exists a b, a ∈ da_vals d /\ b ∈ da_vals d /\ a <> b)).
Proof. exact guess_ok. Qed.
Print Assumptions C51_checkUniformAndGuess.
Theorem C51_hasUniqueValues : forall d, da_alloc d = true -> da_nc d = 1 ->
  exists b, hasUniqueValues d = Ok b /\ (b = true <-> NoDup (da_vals d)).
Proof. exact hasUnique_ok. Qed.
Print Assumptions C51_hasUniqueValues.
Theorem C51_isMonotonic : forall d, da_alloc d = true -> da_nc d = 1 -> forall b : bool, exists r, isMonotonic b d = Ok r /\
    (r = true <-> if b then nondecreasing (da_vals d) else nonincreasing (da_vals d)).
Proof. exact isMonotonic_ok. Qed.
Print Assumptions C51_isMonotonic.
Theorem C51_isStrictlyMonotonic : forall d, da_alloc d = true -> da_nc d = 1 -> forall b : bool, exists r, isStrictlyMonotonic b d = Ok r /\
    (r = true <-> if b then increasing (da_vals d) else decreasing (da_vals d)).
Proof. exact isStrictlyMonotonic_ok. Qed.
Print Assumptions C51_isStrictlyMonotonic.
Example C51_example : isMonotonic true (vec [1;1;4]) = Ok true /\ isStrictlyMonotonic true (vec [1;1;4]) = Ok false /\
  hasUniqueValues (vec [3;1;3]) = Ok false /\ isIota 3 (vec [0;1;2]) = Ok true /\ checkUniformAndGuess (vec [4;4]) = Ok 4.
Proof. vm_compute. auto. Qed.

(** ** C52 *)
Theorem C52_changeValue : forall d, da_alloc d = true -> da_nc d = 1 -> forall oldV newV,
  exists r l, changeValue oldV newV d = Ok (r, l) /\
    l = (fun v => if v =? oldV then newV else v) <$> da_vals d /\ r = if oldV =? newV then 0 else occ oldV (da_vals d).
Proof. exact changeValue_ok. Qed.
Print Assumptions C52_changeValue.
Theorem C52_countValue : forall d, da_alloc d = true -> da_nc d = 1 -> forall val, countValue val d = Ok (occ val (da_vals d)).
Proof. exact countValue_ok. Qed.
Print Assumptions C52_countValue.
Theorem C52_checkAllIdsInRange : forall d, da_alloc d = true -> da_nc d = 1 -> forall vmin vmax,
  (checkAllIdsInRange vmin vmax d = Throw <-> exists v, v ∈ da_vals d /\ ~ vmin <= v < vmax) /\
  ((forall v, v ∈ da_vals d -> vmin <= v < vmax) ->
    exists b, checkAllIdsInRange vmin vmax d = Ok b /\ (b = true <-> da_vals d = seqZ 0 (da_nt d))).
Proof. exact checkAllIds_ok. Qed.
Print Assumptions C52_checkAllIdsInRange.
Example C52_example : changeValue 3 9 (vec [3;1;3]) = Ok (2, [9;1;9]) /\ checkAllIdsInRange 0 3 (vec [0;2]) = Ok false /\
  checkAllIdsInRange 0 2 (vec [0;2]) = Throw.
Proof. vm_compute. auto. Qed.
