(** C31, C32, C54. *)
From Verif Require Import Base DataArray ArrLib RenumSpec IndexSpec LayoutSpec LayoutModel LayoutProofs LayoutProofs2 LayoutProofs3 LayoutProofs4.

(** C31: the interlaced and the non interlaced orders; change of the number of components; components apart and together. *)
Theorem C31_fromNoInterlace : forall A (d : da A), da_wf d -> da_alloc d = true -> 1 <= da_nc d ->
  exists r, fromNoInterlace d = Ok (Some <$> r) /\ holds r (da_nt d) (da_nc d) (fun i j => da_vals d @ (j * da_nt d + i)).
Proof. exact @from_ok. Qed.
Print Assumptions C31_fromNoInterlace.
Theorem C31_toNoInterlace : forall A (d : da A), da_wf d -> da_alloc d = true -> 1 <= da_nc d ->
  exists r, toNoInterlace d = Ok (Some <$> r) /\ holds r (da_nc d) (da_nt d) (fun i j => da_vals d @ (j * da_nc d + i)).
Proof. exact @to_ok. Qed.
Print Assumptions C31_toNoInterlace.
Theorem C31_interlace_throw : forall A (d : da A), da_wf d ->
  (fromNoInterlace d = Throw <-> da_alloc d = false \/ da_nc d < 1) /\ (toNoInterlace d = Throw <-> da_alloc d = false \/ da_nc d < 1).
Proof. exact @inter_throw. Qed.
Print Assumptions C31_interlace_throw.
Theorem C31_from_to : forall A (d : da A), da_wf d -> da_alloc d = true -> 1 <= da_nc d ->
  exists r, fromNoInterlace d = Ok (Some <$> r) /\ toNoInterlace (DA true (da_nc d) r) = Ok (Some <$> da_vals d).
Proof. exact @from_to. Qed.
Print Assumptions C31_from_to.
Theorem C31_to_from : forall A (d : da A), da_wf d -> da_alloc d = true -> 1 <= da_nc d ->
  exists r, toNoInterlace d = Ok (Some <$> r) /\ fromNoInterlace (DA true (da_nc d) r) = Ok (Some <$> da_vals d).
Proof. exact @to_from. Qed.
Print Assumptions C31_to_from.
Theorem C31_rearrange : forall A (d : da A) m, da_alloc d = true -> 1 <= m -> zlen (da_vals d) <= 2 ^ 63 - 1 ->
  (exists n, zlen (da_vals d) = n * m) ->
  rearrange d m = Ok (DA true m (da_vals d)) /\ da_wf (DA true m (da_vals d)) /\ da_nt (DA true m (da_vals d)) * m = zlen (da_vals d).
Proof. exact @rearrange_ok. Qed.
Print Assumptions C31_rearrange.
Theorem C31_rearrange_throw : forall A (d : da A) m, zlen (da_vals d) <= 2 ^ 63 - 1 ->
  (rearrange d m = Throw <-> da_alloc d = false \/ m < 1 \/ ~ exists n, zlen (da_vals d) = n * m).
Proof. exact @rearrange_throw. Qed.
Print Assumptions C31_rearrange_throw.
Theorem C31_rearrange_undo : forall A (d : da A) m r, da_wf d -> 1 <= da_nc d -> zlen (da_vals d) <= 2 ^ 63 - 1 ->
  rearrange d m = Ok r -> rearrange r (da_nc d) = Ok d.
Proof. exact @rearrange_undo. Qed.
Print Assumptions C31_rearrange_undo.
Theorem C31_transpose : forall A (d : da A), da_wf d -> da_alloc d = true -> 1 <= da_nt d -> 1 <= da_nc d -> zlen (da_vals d) <= 2 ^ 63 - 1 ->
  transpose d = Ok (DA true (da_nt d) (da_vals d)) /\ da_nt (DA true (da_nt d) (da_vals d)) = da_nc d /\
  transpose (DA true (da_nt d) (da_vals d)) = Ok d.
Proof. exact @transpose_ok. Qed.
Print Assumptions C31_transpose.
Theorem C31_explode : forall A (d : da A), da_wf d -> da_alloc d = true ->
  exists cols : list (list A), explodeComponents d = Ok (cells <$> cols) /\ zlen cols = da_nc d /\
    forall j col, cols @ j = Some col -> zlen col = da_nt d /\ forall i, 0 <= i < da_nt d -> col @ i = da_vals d @ (i * da_nc d + j).
Proof. exact @explode_ok. Qed.
Print Assumptions C31_explode.
(** Tuple [i] of the result is the concatenation of the tuples [i] of the non-null arrays. *)
Theorem C31_Meld : forall A (arr : list (option (da A))) n, omap id arr <> [] ->
  (forall d, d ∈ omap id arr -> da_wf d /\ da_alloc d = true /\ da_nt d = n) ->
  Meld arr = Ok (zsum (da_nc <$> omap id arr),
    Some <$> concat ((fun i => concat ((fun d => tuple d i) <$> omap id arr)) <$> seqZ 0 n)).
Proof. exact @Meld_ok. Qed.
Print Assumptions C31_Meld.
Theorem C31_Meld_throw : forall A (arr : list (option (da A))), (forall d, d ∈ omap id arr -> da_wf d) ->
  (Meld arr = Throw <-> omap id arr = [] \/ (exists d, d ∈ omap id arr /\ da_alloc d = false) \/
    exists d d', d ∈ omap id arr /\ d' ∈ omap id arr /\ da_nt d <> da_nt d').
Proof. exact @Meld_throw. Qed.
Print Assumptions C31_Meld_throw.
Theorem C31_explode_Meld : forall A (d : da A), da_wf d -> da_alloc d = true -> 1 <= da_nc d ->
  exists cols : list (list A), explodeComponents d = Ok (cells <$> cols) /\
    Meld ((fun c => Some (vec c)) <$> cols) = Ok (da_nc d, cells (da_vals d)).
Proof. exact @explode_meld. Qed.
Print Assumptions C31_explode_Meld.
Theorem C31_Meld_explode : forall A (cols : list (list A)) n, cols <> [] -> (forall c, c ∈ cols -> zlen c = n) ->
  exists r : list A, Meld ((fun c => Some (vec c)) <$> cols) = Ok (zlen cols, cells r) /\
    explodeComponents (DA true (zlen cols) r) = Ok (cells <$> cols).
Proof. exact @meld_explode. Qed.
Print Assumptions C31_Meld_explode.
Theorem C31_meldWith : forall A (d e : da A), da_wf d -> da_wf e -> da_alloc d = true -> da_alloc e = true -> da_nt d = da_nt e ->
  meldWith d e = Ok (da_nc d + da_nc e, cells (concat ((fun i => tuple d i ++ tuple e i) <$> seqZ 0 (da_nt d)))).
Proof. exact @meldWith_ok. Qed.
Print Assumptions C31_meldWith.
Theorem C31_meldWith_throw : forall A (d e : da A), da_wf d -> da_wf e ->
  (meldWith d e = Throw <-> da_alloc d = false \/ da_alloc e = false \/ da_nt d <> da_nt e).
Proof. exact @meldWith_throw. Qed.
Print Assumptions C31_meldWith_throw.
Example C31_ex : let d := DA true 2 [1; 10; 2; 20; 3; 30] in da_wf d /\
  toNoInterlace d = Ok (Some <$> [1; 2; 3; 10; 20; 30]) /\ fromNoInterlace (DA true 2 [1; 2; 3; 10; 20; 30]) = Ok (Some <$> da_vals d) /\
  rearrange d 3 = Ok (DA true 3 (da_vals d)) /\ rearrange d 4 = Throw /\ explodeComponents d = Ok (cells <$> [[1; 2; 3]; [10; 20; 30]]) /\
  Meld [Some d; None; Some (vec [7; 8; 9])] = Ok (3, cells [1; 10; 7; 2; 20; 8; 3; 30; 9]) /\ Meld [Some d; Some (vec [7; 8])] = Throw.
Proof. cbv zeta. split; [split; [done|]; exists 3; done|]. vm_compute. done. Qed.

(** C32: rotations and reversals. *)
Theorem C32_circularPermutation : forall A (d : da A) s, da_wf d -> da_alloc d = true -> 1 <= da_nt d -> -2 ^ 63 < s ->
  exists r, circularPermutation false d s = Ok r /\
    holds r (da_nt d) (da_nc d) (fun i j => da_vals d @ (((i + s) mod da_nt d) * da_nc d + j)).
Proof. exact @circ_ok. Qed.
Print Assumptions C32_circularPermutation.
Theorem C32_circularPermutation_throw : forall A strict (d : da A) s, da_wf d -> -2 ^ 63 < s ->
  (circularPermutation strict d s = Throw <-> da_alloc d = false \/ da_nt d = 0).
Proof. exact @circ_throw. Qed.
Print Assumptions C32_circularPermutation_throw.
Theorem C32_circularPermutation_add : forall A (d : da A) s t, da_wf d -> da_alloc d = true -> 1 <= da_nt d ->
  -2 ^ 63 < s -> -2 ^ 63 < t -> -2 ^ 63 < s + t ->
  exists r, circularPermutation false d s = Ok r /\
    circularPermutation false (DA true (da_nc d) r) t = circularPermutation false d (s + t).
Proof. exact @circ_add. Qed.
Print Assumptions C32_circularPermutation_add.
Theorem C32_circularPermutationPerTuple : forall A B (d : da A) (names : list B) s, da_wf d -> da_alloc d = true -> 1 <= da_nc d ->
  -2 ^ 63 < s -> zlen names = da_nc d ->
  exists r nm, circularPermutationPerTuple false d names s = Ok (r, nm) /\
    holds r (da_nt d) (da_nc d) (fun i j => da_vals d @ (i * da_nc d + (j + s) mod da_nc d)) /\
    zlen nm = da_nc d /\ forall j, 0 <= j < da_nc d -> nm @ j = names @ ((j + s) mod da_nc d).
Proof. exact @circPT_ok. Qed.
Print Assumptions C32_circularPermutationPerTuple.
Theorem C32_circularPermutationPerTuple_throw : forall A B strict (d : da A) (names : list B) s, da_wf d -> -2 ^ 63 < s ->
  (circularPermutationPerTuple strict d names s = Throw <-> da_alloc d = false \/ da_nc d = 0).
Proof. exact @circPT_throw. Qed.
Print Assumptions C32_circularPermutationPerTuple_throw.
(** When the precondition of std::copy is enforced, rotations by up to half the tuples stay defined, and larger ones do not. *)
Theorem C32_circularPermutation_strict : forall A (d : da A) s, da_wf d -> da_alloc d = true -> 1 <= da_nt d -> 0 <= s ->
  2 * (s mod da_nt d) <= da_nt d -> circularPermutation true d s = circularPermutation false d s.
Proof. exact @circ_strict. Qed.
Print Assumptions C32_circularPermutation_strict.
Theorem C32_strict_copy_undefined : exists (d : da Z) s, da_wf d /\ da_alloc d = true /\ 1 <= da_nt d /\ -2 ^ 63 < s /\
  circularPermutation true d s = UB.
Proof. exists (vec [1; 2; 3]), 2. split; [split; [done|]; exists 3; done|]. vm_compute. done. Qed.
Print Assumptions C32_strict_copy_undefined.
Theorem C32_reverse : forall A (d : da A), da_wf d -> da_alloc d = true -> 1 <= da_nc d ->
  exists r, reverse d = Ok r /\ holds r (da_nt d) (da_nc d) (fun i j => da_vals d @ ((da_nt d - 1 - i) * da_nc d + j)).
Proof. exact @rev_ok. Qed.
Print Assumptions C32_reverse.
Theorem C32_reverse_throw : forall A (d : da A), da_wf d -> (reverse d = Throw <-> da_alloc d = false \/ da_nc d < 1).
Proof. exact @rev_throw. Qed.
Print Assumptions C32_reverse_throw.
Theorem C32_reverse_twice : forall A (d : da A), da_wf d -> da_alloc d = true -> 1 <= da_nc d ->
  exists r, reverse d = Ok r /\ reverse (DA true (da_nc d) r) = Ok (da_vals d).
Proof. exact @rev_invol. Qed.
Print Assumptions C32_reverse_twice.
Theorem C32_reversePerTuple : forall A B (d : da A) (names : list B), da_wf d -> zlen names = da_nc d -> da_alloc d = true ->
  exists r, reversePerTuple d names = Ok (r, rev names) /\
    holds r (da_nt d) (da_nc d) (fun i j => da_vals d @ (i * da_nc d + (da_nc d - 1 - j))).
Proof. exact @revPT_ok. Qed.
Print Assumptions C32_reversePerTuple.
Theorem C32_reversePerTuple_twice : forall A B (d : da A) (names : list B), da_wf d -> zlen names = da_nc d -> da_alloc d = true ->
  exists r nm, reversePerTuple d names = Ok (r, nm) /\ reversePerTuple (DA true (da_nc d) r) nm = Ok (da_vals d, names).
Proof. exact @revPT_invol. Qed.
Print Assumptions C32_reversePerTuple_twice.
Example C32_ex : let d := DA true 2 [1; 10; 2; 20; 3; 30; 4; 40; 5; 50] in da_wf d /\
  circularPermutation false d 2 = Ok [3; 30; 4; 40; 5; 50; 1; 10; 2; 20] /\ circularPermutation false d (-1) = Ok [5; 50; 1; 10; 2; 20; 3; 30; 4; 40] /\
  circularPermutationPerTuple false d [7; 8] 3 = Ok ([10; 1; 20; 2; 30; 3; 40; 4; 50; 5], [8; 7]) /\
  reverse d = Ok [5; 50; 4; 40; 3; 30; 2; 20; 1; 10] /\ reversePerTuple d [7; 8] = Ok ([10; 1; 20; 2; 30; 3; 40; 4; 50; 5], [8; 7]).
Proof. cbv zeta. split; [split; [done|]; exists 5; done|]. vm_compute. done. Qed.

(** C54: selection and replacement of components, repetition of tuples. *)
Theorem C54_changeNbOfComponents : forall A (d : da A) m x, da_wf d -> 0 <= m -> da_alloc d = true ->
  exists r, changeNbOfComponents d m x = Ok (cells r) /\
    holds r (da_nt d) m (fun i j => if j <? da_nc d then da_vals d @ (i * da_nc d + j) else Some x).
Proof. exact @change_ok. Qed.
Print Assumptions C54_changeNbOfComponents.
Theorem C54_keepSelectedComponents : forall A (d : da A) ids, da_wf d -> da_alloc d = true -> (forall c, c ∈ ids -> 0 <= c < da_nc d) ->
  exists r, keepSelectedComponents d ids = Ok (cells r) /\
    holds r (da_nt d) (zlen ids) (fun i j => match ids @ j with Some c => da_vals d @ (i * da_nc d + c) | None => None end).
Proof. exact @keep_ok. Qed.
Print Assumptions C54_keepSelectedComponents.
Theorem C54_keepSelectedComponents_throw : forall A (d : da A) ids, da_wf d -> (forall c, c ∈ ids -> 0 <= c) ->
  (keepSelectedComponents d ids = Throw <-> da_alloc d = false \/ exists c, c ∈ ids /\ da_nc d <= c).
Proof. exact @keep_throw. Qed.
Print Assumptions C54_keepSelectedComponents_throw.
Theorem C54_setSelectedComponents : forall A (d a : da A) ids, da_wf d -> da_wf a -> da_alloc d = true -> da_alloc a = true ->
  zlen ids = da_nc a -> (forall c, c ∈ ids -> 0 <= c < da_nc d) ->
  exists r, setSelectedComponents d (Some a) ids = Ok r /\ zlen r = zlen (da_vals d) /\
    forall i c, 0 <= i < da_nt d -> 0 <= c < da_nc d ->
      (forall k, i < da_nt a -> last_pos ids c k -> r @ (i * da_nc d + c) = da_vals a @ (i * da_nc a + k)) /\
      (da_nt a <= i \/ c ∉ ids -> r @ (i * da_nc d + c) = da_vals d @ (i * da_nc d + c)).
Proof. exact @set_ok. Qed.
Print Assumptions C54_setSelectedComponents.
Theorem C54_setSelectedComponents_throw : forall A (d a : da A) ids, da_wf d -> da_wf a -> (forall c, c ∈ ids -> 0 <= c) ->
  (setSelectedComponents d (Some a) ids = Throw <->
    da_alloc d = false \/ da_alloc a = false \/ zlen ids <> da_nc a \/ exists c, c ∈ ids /\ da_nc d <= c).
Proof. exact @set_throw. Qed.
Print Assumptions C54_setSelectedComponents_throw.
Theorem C54_duplicateEachTupleNTimes : forall A (d : da A) t, da_alloc d = true -> da_nc d = 1 -> 1 <= t ->
  exists r, duplicateEachTupleNTimes d t = Ok (cells r) /\ holds r (da_nt d) t (fun i _ => da_vals d @ i).
Proof. exact @dupEach_ok. Qed.
Print Assumptions C54_duplicateEachTupleNTimes.
Theorem C54_duplicateEachTupleNTimes_throw : forall A (d : da A) t,
  duplicateEachTupleNTimes d t = Throw <-> da_alloc d = false \/ da_nc d <> 1 \/ t < 1.
Proof. exact @dupEach_throw. Qed.
Print Assumptions C54_duplicateEachTupleNTimes_throw.
Theorem C54_duplicateNTimes : forall A (d : da A) t, da_wf d -> da_alloc d = true -> 0 <= t ->
  duplicateNTimes d t = Ok (cells (concat (replicate (Z.to_nat t) (da_vals d)))).
Proof. exact @dup_ok. Qed.
Print Assumptions C54_duplicateNTimes.
Example C54_ex : let d := DA true 3 [1; 2; 3; 4; 5; 6] in da_wf d /\
  changeNbOfComponents d 4 9 = Ok (cells [1; 2; 3; 9; 4; 5; 6; 9]) /\ changeNbOfComponents d 1 9 = Ok (cells [1; 4]) /\
  keepSelectedComponents d [2; 0; 2] = Ok (cells [3; 1; 3; 6; 4; 6]) /\ keepSelectedComponents d [3] = Throw /\
  setSelectedComponents d (Some (DA true 2 [70; 80; 71; 81; 72; 82])) [2; 0] = Ok [80; 2; 70; 81; 5; 71] /\
  duplicateEachTupleNTimes (vec [1; 2]) 3 = Ok (cells [1; 1; 1; 2; 2; 2]) /\ duplicateNTimes d 2 = Ok (cells [1; 2; 3; 4; 5; 6; 1; 2; 3; 4; 5; 6]).
Proof. cbv zeta. split; [split; [done|]; exists 2; done|]. vm_compute. done. Qed.
