(** C04, C05, C06, C07, C10, C11, C12. *)
From stdpp Require Import gmap.
From Verif Require Import Base DataArray ArrLib SlicesModel SlicesSpec SlicesProofs RenumModel RenumSpec RenumProofs RenumProofs2.

(** ** C04 *)
Theorem C04_renumber : forall A (d : da A) p, da_alloc d = true -> da_wf d -> is_perm (da_nt d) p ->
  exists l, renumber d p = Ok (DA true (da_nc d) (Some <$> l)) /\ zlen l = zlen (da_vals d) /\
    forall i t, p @ i = Some t -> forall j, ij (DA true (da_nc d) l) t j = ij d i j.
Proof. exact @renumber_ok. Qed.
Print Assumptions C04_renumber.

Theorem C04_renumberR : forall A (d : da A) p,
  da_alloc d = true -> da_wf d -> zlen p = da_nt d -> (forall v, v ∈ p -> 0 <= v < da_nt d) ->
  exists l, renumberR d p = Ok (DA true (da_nc d) (Some <$> l)) /\ zlen l = zlen (da_vals d) /\
    forall i t, p @ i = Some t -> forall j, ij (DA true (da_nc d) l) i j = ij d t j.
Proof. exact @renumberR_ok. Qed.
Print Assumptions C04_renumberR.

Theorem C04_renumber_then_renumberR : forall A (d : da A) p, da_alloc d = true -> da_wf d -> is_perm (da_nt d) p ->
  exists l, renumber d p = Ok (DA true (da_nc d) (Some <$> l)) /\
            renumberR (DA true (da_nc d) l) p = Ok (DA true (da_nc d) (Some <$> da_vals d)).
Proof. exact @renumber_roundtrip. Qed.
Print Assumptions C04_renumber_then_renumberR.

Theorem C04_renumberR_then_renumber : forall A (d : da A) p, da_alloc d = true -> da_wf d -> is_perm (da_nt d) p ->
  exists l, renumberR d p = Ok (DA true (da_nc d) (Some <$> l)) /\
            renumber (DA true (da_nc d) l) p = Ok (DA true (da_nc d) (Some <$> da_vals d)).
Proof. exact @renumberR_roundtrip. Qed.
Print Assumptions C04_renumberR_then_renumber.

Theorem C04_inplace : forall A (d : da A) p, da_alloc d = true -> da_wf d -> is_perm (da_nt d) p ->
  exists r, renumber d p = Ok r /\ renumberInPlace d p = (Ok tt, r).
Proof. exact @renumberInPlace_same. Qed.
Print Assumptions C04_inplace.

Theorem C04_inplaceR : forall A (d : da A) p, da_alloc d = true -> da_wf d -> is_perm (da_nt d) p ->
  exists r, renumberR d p = Ok r /\ renumberInPlaceR d p = (Ok tt, r).
Proof. exact @renumberInPlaceR_same. Qed.
Print Assumptions C04_inplaceR.

Theorem C04_multiset : forall A (d : da A) p, da_alloc d = true -> da_wf d -> is_perm (da_nt d) p ->
  exists l, renumber d p = Ok (DA true (da_nc d) (Some <$> l)) /\ tuples (DA true (da_nc d) l) ≡ₚ tuples d.
Proof.
  exact (fun A d p Ha Hwf Hp => match renumber_ok d p Ha Hwf Hp with
    | ex_intro _ l (conj H1 (conj H2 H3)) => ex_intro _ l (conj H1 (tuples_perm d l p Hwf Hp H2 H3)) end).
Qed.
Print Assumptions C04_multiset.

Example C04_ex : is_perm 3 [2; 0; 1] /\ da_wf (DA true 2 [10; 11; 20; 21; 30; 31]) /\
  renumber (DA true 2 [10; 11; 20; 21; 30; 31]) [2; 0; 1] = Ok (DA true 2 (Some <$> [20; 21; 30; 31; 10; 11])) /\
  renumberR (DA true 2 [10; 11; 20; 21; 30; 31]) [2; 0; 1] = Ok (DA true 2 (Some <$> [30; 31; 10; 11; 20; 21])).
Proof.
  split; [|split].
  - apply perm_intro; [done| |apply (bool_decide_unpack _); vm_compute; done].
    intros i x Hi. apply zlook_elem in Hi. set_unfold in Hi. lia.
  - split; [done|]. exists 3. done.
  - vm_compute. done.
Qed.

(** ** C05: for every map, not only permutations. *)
Theorem C05_renumberInPlace : forall A (d : da A) p, da_alloc d = true -> da_wf d -> zlen p = da_nt d ->
  (exists cells, renumberInPlace d p = (Ok tt, DA (da_alloc d) (da_nc d) cells) /\ zlen cells = zlen (da_vals d) /\
     ~ out_of_range (da_nt d) p) \/
  (renumberInPlace d p = (Throw, DA (da_alloc d) (da_nc d) (Some <$> da_vals d)) /\ out_of_range (da_nt d) p).
Proof. exact @renumberInPlace_total. Qed.
Print Assumptions C05_renumberInPlace.

Theorem C05_renumberInPlaceR : forall A (d : da A) p, da_alloc d = true -> da_wf d -> zlen p = da_nt d ->
  (exists l, renumberInPlaceR d p = (Ok tt, DA (da_alloc d) (da_nc d) (Some <$> l)) /\ zlen l = zlen (da_vals d) /\
     (forall i t, p @ i = Some t -> forall j, ij (DA true (da_nc d) l) i j = ij d t j) /\ ~ out_of_range (da_nt d) p) \/
  (renumberInPlaceR d p = (Throw, DA (da_alloc d) (da_nc d) (Some <$> da_vals d)) /\ out_of_range (da_nt d) p).
Proof. exact @renumberInPlaceR_wp. Qed.
Print Assumptions C05_renumberInPlaceR.

Example C05_ex : fst (renumberInPlace (DA true 1 [7; 8; 9]) [2; 3; 0]) = Throw /\
  fst (renumberInPlace (DA true 1 [7; 8; 9]) [2; 2; 0]) = Ok tt /\
  fst (renumberInPlaceR (DA true 1 [7; 8; 9]) [2; -1; 0]) = Throw.
Proof. vm_compute. done. Qed.

(** ** C06 *)
Theorem C06_renumberAndReduce : forall A (d : da A) p newNb,
  da_alloc d = true -> da_wf d -> zlen p = da_nt d -> 0 <= newNb -> (forall v, v ∈ p -> v < newNb) ->
  exists cells, renumberAndReduce d p newNb = Ok (DA true (da_nc d) cells) /\ zlen cells = newNb * da_nc d /\
    (forall t i, 0 <= t -> last_pos p t i -> forall j, ij (DA true (da_nc d) cells) t j = Some <$> ij d i j) /\
    (forall t j, 0 <= t < newNb -> 0 <= j < da_nc d -> t ∉ p -> ij (DA true (da_nc d) cells) t j = Some None).
Proof. exact @renumberAndReduce_ok. Qed.
Print Assumptions C06_renumberAndReduce.

Theorem C06_renumberAndReduce_full : forall A (d : da A) p newNb,
  da_alloc d = true -> da_wf d -> zlen p = da_nt d -> 0 <= newNb ->
  is_perm newNb (filter (fun v => 0 <= v) p) ->
  exists l, renumberAndReduce d p newNb = Ok (DA true (da_nc d) (Some <$> l)) /\ zlen l = newNb * da_nc d /\
    (forall t i, p @ i = Some t -> 0 <= t -> forall j, ij (DA true (da_nc d) l) t j = ij d i j).
Proof. exact @renumberAndReduce_full. Qed.
Print Assumptions C06_renumberAndReduce_full.

Example C06_ex : renumberAndReduce (DA true 2 [10; 11; 20; 21; 30; 31]) [1; -1; 0] 2 = Ok (DA true 2 (Some <$> [30; 31; 10; 11])) /\
  is_perm 2 (filter (fun v => 0 <= v) [1; -1; 0]).
Proof.
  split; [vm_compute; done|]. apply perm_intro; [done| |apply (bool_decide_unpack _); vm_compute; done].
  intros i x Hi. apply zlook_elem in Hi. change (filter _ _) with [1; 0] in Hi. set_unfold in Hi. lia.
Qed.

(** ** C07 *)
Theorem C07_invertO2N : forall l m, 0 <= m -> (forall v, v ∈ l -> o2n_ok m v) ->
  exists r, invertArrayO2N2N2O (vec l) m = Ok r /\ zlen r = m /\
      (forall t i, 0 <= t < m -> last_pos l t i -> r @ t = Some (Some i)) /\
      (forall t, 0 <= t < m -> t ∉ l -> r @ t = Some None).
Proof. exact invertO2N_ok. Qed.
Print Assumptions C07_invertO2N.
Theorem C07_invertO2N_throw : forall l m, 0 <= m ->
  invertArrayO2N2N2O (vec l) m = Throw <-> exists v, v ∈ l /\ ~ o2n_ok m v.
Proof. exact invertO2N_throw. Qed.
Print Assumptions C07_invertO2N_throw.
Theorem C07_invertO2NBis : forall l m, 0 <= m -> (forall v, v ∈ l -> o2n_ok m v) ->
  exists r, invertArrayO2N2N2OBis (vec l) m = Ok r /\ zlen r = m /\
      (forall t i, 0 <= t < m -> first_pos l t i -> r @ t = Some (Some i)) /\
      (forall t, 0 <= t < m -> t ∉ l -> r @ t = Some None).
Proof. exact invertO2NBis_ok. Qed.
Print Assumptions C07_invertO2NBis.
Theorem C07_invertO2NBis_throw : forall l m, 0 <= m ->
  invertArrayO2N2N2OBis (vec l) m = Throw <-> exists v, v ∈ l /\ ~ o2n_ok m v.
Proof. exact invertO2NBis_throw. Qed.
Print Assumptions C07_invertO2NBis_throw.
Theorem C07_invertN2O : forall l m, 0 <= m -> ~ out_of_range m l ->
  exists r, invertArrayN2O2O2N (vec l) m = Ok (Some <$> r) /\ zlen r = m /\
      (forall t i, 0 <= t < m -> last_pos l t i -> r @ t = Some i) /\
      (forall t, 0 <= t < m -> t ∉ l -> r @ t = Some (-1)).
Proof. exact invertN2O_ok. Qed.
Print Assumptions C07_invertN2O.
Theorem C07_invertN2O_throw : forall l m, 0 <= m -> invertArrayN2O2O2N (vec l) m = Throw <-> out_of_range m l.
Proof. exact invertN2O_throw. Qed.
Print Assumptions C07_invertN2O_throw.
Theorem C07_inverse_of_permutation : forall l n, 0 <= n -> is_perm n l ->
  exists r, invertArrayO2N2N2O (vec l) n = Ok (Some <$> r) /\ is_perm n r /\ (forall i t, l @ i = Some t <-> r @ t = Some i).
Proof. exact invertO2N_perm. Qed.
Print Assumptions C07_inverse_of_permutation.
Theorem C07_twice : forall l n, 0 <= n -> is_perm n l ->
  exists r, invertArrayO2N2N2O (vec l) n = Ok (Some <$> r) /\ invertArrayO2N2N2O (vec r) n = Ok (Some <$> l).
Proof. exact invertO2N_twice. Qed.
Print Assumptions C07_twice.
Theorem C07_variants_agree : forall l n, 0 <= n -> is_perm n l ->
  invertArrayN2O2O2N (vec l) n = invertArrayO2N2N2O (vec l) n /\ invertArrayO2N2N2OBis (vec l) n = invertArrayO2N2N2O (vec l) n.
Proof. exact invert_variants_agree. Qed.
Print Assumptions C07_variants_agree.
Theorem C07_surjective : forall l m, 0 <= m -> (forall v, v ∈ l -> o2n_ok m v) -> (forall t, 0 <= t < m -> t ∈ l) ->
  exists r, invertArrayO2N2N2O (vec l) m = Ok (Some <$> r) /\ zlen r = m /\ forall t i, r @ t = Some i -> l @ i = Some t.
Proof. exact invertO2N_surjective. Qed.
Print Assumptions C07_surjective.
Theorem C07_optimized : forall d, da_alloc d = true -> da_nc d = 1 ->
  exists m, invertArrayN2O2O2NOptimized d = Ok m /\ forall v i, m !! v = Some i <-> last_pos (da_vals d) v i.
Proof. exact invertOpt_ok. Qed.
Print Assumptions C07_optimized.
Theorem C07_giveN2O : forall d, da_alloc d = true -> da_nc d = 1 ->
  exists m, giveN2OOptimized d = Ok m /\ forall i, m !! i = da_vals d @ i.
Proof. exact giveN2O_ok. Qed.
Print Assumptions C07_giveN2O.

Example C07_ex : invertArrayO2N2N2O (vec [2; -1; 0; 1]) 3 = Ok (Some <$> [2; 3; 0]) /\
  invertArrayO2N2N2O (vec [0; 0; 2]) 3 = Ok [Some 1; None; Some 2] /\
  invertArrayO2N2N2OBis (vec [0; 0; 2]) 3 = Ok [Some 0; None; Some 2] /\
  invertArrayN2O2O2N (vec [3; 1]) 5 = Ok (Some <$> [-1; 1; -1; 0; -1]).
Proof. vm_compute. done. Qed.

(** ** C10 *)
Theorem C10_selectByTupleId : forall A (d : da A) ids,
  da_alloc d = true -> da_wf d -> (forall v, v ∈ ids -> 0 <= v < da_nt d) ->
  exists l, mySelectByTupleId d ids = Ok (DA true (da_nc d) (Some <$> l)) /\ zlen l = zlen ids * da_nc d /\
    forall i t, ids @ i = Some t -> forall j, ij (DA true (da_nc d) l) i j = ij d t j.
Proof. exact @select_ok. Qed.
Print Assumptions C10_selectByTupleId.
Theorem C10_safe_throw : forall A (d : da A) ids, da_alloc d = true -> da_wf d ->
  mySelectByTupleIdSafe d ids = Throw <-> out_of_range (da_nt d) ids.
Proof. exact @selectSafe_throw. Qed.
Print Assumptions C10_safe_throw.
Theorem C10_safe_same : forall A (d : da A) ids, da_alloc d = true -> da_wf d -> ~ out_of_range (da_nt d) ids ->
  mySelectByTupleIdSafe d ids = mySelectByTupleId d ids.
Proof. exact @selectSafe_same. Qed.
Print Assumptions C10_safe_same.
Example C10_ex : mySelectByTupleIdSafe (DA true 2 [10; 11; 20; 21; 30; 31]) [2; 2; 0] = Ok (DA true 2 (Some <$> [30; 31; 30; 31; 10; 11])) /\
  mySelectByTupleIdSafe (DA true 2 [10; 11; 20; 21; 30; 31]) [2; 3] = Throw.
Proof. vm_compute. done. Qed.

(** ** C11: the equivalence holds for slices staying in the array; the exception on other slices is refuted below. *)
Theorem C11_slice_partial : forall A (d : da A) bg en st l,
  da_alloc d = true -> da_wf d -> valid_range bg en st -> is_range_list bg en st l ->
  (forall v, v ∈ l -> 0 <= v < da_nt d) ->
  mySelectByTupleIdSafeSlice d bg en st = mySelectByTupleIdSafe d l.
Proof. exact @selectSlice_ok. Qed.
Print Assumptions C11_slice_partial.
Theorem C11_slice_invalid : forall A (d : da A) bg en st,
  da_alloc d = true -> ~ valid_range bg en st -> mySelectByTupleIdSafeSlice d bg en st = Throw.
Proof. exact @selectSlice_throw. Qed.
Print Assumptions C11_slice_invalid.
Theorem C11_slice_safe_refuted : exists (d : da Z) bg en st l,
  da_alloc d = true /\ da_wf d /\ valid_range bg en st /\ is_range_list bg en st l /\
  mySelectByTupleIdSafe d l = Throw /\ mySelectByTupleIdSafeSlice d bg en st = UB.
Proof. exact slice_refuted. Qed.
Print Assumptions C11_slice_safe_refuted.
Theorem C11_subArray_partial : forall A (d : da A) bg en, da_alloc d = true -> da_wf d ->
  let e := if en =? -1 then da_nt d else en in
  0 <= bg <= e -> e <= da_nt d ->
  exists l, subArray d bg en = Ok (DA true (da_nc d) (Some <$> l)) /\ zlen l = (e - bg) * da_nc d /\
    forall i, 0 <= i < e - bg -> forall j, ij (DA true (da_nc d) l) i j = ij d (bg + i) j.
Proof. exact @subArray_ok. Qed.
Print Assumptions C11_subArray_partial.
Theorem C11_subArray_throw : forall A (d : da A) bg en, da_alloc d = true ->
  subArray d bg en = Throw <-> bg < 0 \/ da_nt d < bg \/ (en <> -1 /\ da_nt d < en).
Proof. exact @subArray_throw. Qed.
Print Assumptions C11_subArray_throw.
Theorem C11_subArray_safe_refuted : exists (d : da Z) bg en,
  da_alloc d = true /\ da_wf d /\ subArray d bg en = UB.
Proof. exact subArray_refuted. Qed.
Print Assumptions C11_subArray_safe_refuted.
Example C11_ex : mySelectByTupleIdSafeSlice (DA true 2 [10; 11; 20; 21; 30; 31]) 2 (-1) (-2) = Ok (DA true 2 (Some <$> [30; 31; 10; 11])) /\
  subArray (DA true 2 [10; 11; 20; 21; 30; 31]) 1 (-1) = Ok (DA true 2 (Some <$> [20; 21; 30; 31])).
Proof. vm_compute. done. Qed.

(** ** C12 *)
Theorem C12_selectByTupleRanges : forall A (d : da A) ranges,
  da_alloc d = true -> da_wf d -> (forall x, x ∈ ranges -> range_within (da_nt d) x) ->
  exists l, mySelectByTupleRanges d ranges = Ok (DA true (da_nc d) (Some <$> l)) /\ zlen l = zlen (ranges_ids ranges) * da_nc d /\
       forall i t, ranges_ids ranges @ i = Some t -> forall j, ij (DA true (da_nc d) l) i j = ij d t j.
Proof. exact @selectRanges_ok. Qed.
Print Assumptions C12_selectByTupleRanges.
Theorem C12_throw : forall A (d : da A) ranges, da_alloc d = true -> da_wf d ->
  mySelectByTupleRanges d ranges = Throw <-> exists x, x ∈ ranges /\ ~ range_within (da_nt d) x.
Proof. exact @selectRanges_throw. Qed.
Print Assumptions C12_throw.
Example C12_ex : ranges_ids [(1, 3); (0, 2)] = [1; 2; 0; 1] /\
  mySelectByTupleRanges (DA true 2 [10; 11; 20; 21; 30; 31]) [(1, 3); (0, 2)] =
    Ok (DA true 2 (Some <$> [20; 21; 30; 31; 10; 11; 20; 21])) /\
  mySelectByTupleRanges (DA true 1 [5; 6]) [(0, 1); (1, 1); (1, 2)] = Ok (DA true 1 (Some <$> [5; 6])).
Proof. vm_compute. done. Qed.
