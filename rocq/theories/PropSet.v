(** C48: writing a part of an array (setPartOfValues and setPartOfValuesSimple); C49: writing consecutive tuples (setContigPartOfSelectedValues) and pairs of tuples (setPartOfValuesAdv).
    [sets stop d good T C f o] (SetSpec): the call succeeds exactly when [good], with the entries (T[i],C[j]) set to [f i j] and the others untouched; otherwise it throws, never accessing memory out of the arrays. *)
From Verif Require Import Base DataArray SlicesSpec SetModel SetSpec SetProofs SetProofs2 SetProofs3.

Theorem C48_set1 {A} (d a : da A) bT eT sT bC eC sC strict T C : da_wf d -> da_wf a -> is_range_list bT eT sT T -> is_range_list bC eC sC C ->
  sets nowhere d (usable d a /\ slice_in bT eT sT (da_nt d) /\ slice_in bC eC sC (da_nc d) /\ source_fits a (zlen T) (zlen C) strict) T C
    (source_value a (zlen T) (zlen C)) (setPartOfValues1 d (Other a) bT eT sT bC eC sC strict).
Proof. exact (set1_ok d a bT eT sT bC eC sC strict T C). Qed.
Print Assumptions C48_set1.
Theorem C48_set2 {A} (d a : da A) T C strict : da_wf d -> da_wf a ->
  sets (first_out T (da_nt d)) d (usable d a /\ ids_in T (da_nt d) /\ ids_in C (da_nc d) /\ source_fits a (zlen T) (zlen C) strict) T C
    (source_value a (zlen T) (zlen C)) (setPartOfValues2 d (Other a) T C strict).
Proof. exact (set2_ok d a T C strict). Qed.
Print Assumptions C48_set2.
(** The tuple ids are not looked at when there is no component to write. *)
Theorem C48_set3 {A} (d a : da A) T bC eC sC strict C : da_wf d -> da_wf a -> is_range_list bC eC sC C ->
  sets (first_out T (da_nt d)) d (usable d a /\ (ids_in T (da_nt d) \/ C = []) /\ slice_in bC eC sC (da_nc d) /\ source_fits a (zlen T) (zlen C) strict) T C
    (source_value a (zlen T) (zlen C)) (setPartOfValues3 d (Other a) T bC eC sC strict).
Proof. exact (set3_ok d a T bC eC sC strict C). Qed.
Print Assumptions C48_set3.
Theorem C48_set4 {A} (d a : da A) bT eT sT C strict T : da_wf d -> da_wf a -> is_range_list bT eT sT T ->
  sets nowhere d (usable d a /\ slice_in bT eT sT (da_nt d) /\ ids_in C (da_nc d) /\ source_fits a (zlen T) (zlen C) strict) T C
    (source_value a (zlen T) (zlen C)) (setPartOfValues4 d (Other a) bT eT sT C strict).
Proof. exact (set4_ok d a bT eT sT C strict T). Qed.
Print Assumptions C48_set4.
Example C48_set_ex : let d := DA true 2 [1; 2; 3; 4; 5; 6; 7; 8] in
  setPartOfValues1 d (Other (DA true 2 [10; 20; 30; 40])) 0 4 2 0 2 1 true = (Ok tt, DA true 2 [10; 20; 3; 4; 30; 40; 7; 8]) /\
  setPartOfValues2 d (Other (DA true 2 [10; 20])) [3; 1] [1; 0] true = (Ok tt, DA true 2 [1; 2; 20; 10; 5; 6; 20; 10]) /\
  setPartOfValues2 d (Other (DA true 1 [10; 20])) [3; 4] [1] true = (Throw, DA true 2 [1; 2; 3; 4; 5; 6; 7; 10]) /\
  setPartOfValues3 d (Other (DA true 1 [10; 20])) [3; 0] 1 2 1 true = (Ok tt, DA true 2 [1; 20; 3; 4; 5; 6; 7; 10]) /\
  setPartOfValues4 d (Other (DA true 2 [10; 20])) 2 4 1 [0] false = (Ok tt, DA true 2 [1; 2; 3; 4; 10; 6; 20; 8]) /\
  setPartOfValues4 d (Other (DA true 2 [10; 20])) 2 4 1 [0] true = (Throw, d) /\ setPartOfValues1 d (Other (DA true 1 [10])) 0 4 2 2 1 1 true = (Throw, d).
Proof. vm_compute. done. Qed.

Theorem C48_simple1 {A} (d : da A) (a : A) bT eT sT bC eC sC T C : da_wf d -> is_range_list bT eT sT T -> is_range_list bC eC sC C ->
  sets nowhere d (da_alloc d = true /\ slice_in bT eT sT (da_nt d) /\ slice_in bC eC sC (da_nc d)) T C (fun _ _ => Some a) (setPartOfValuesSimple1 d a bT eT sT bC eC sC).
Proof. exact (sset1_ok d a bT eT sT bC eC sC T C). Qed.
Print Assumptions C48_simple1.
Theorem C48_simple2 {A} (d : da A) (a : A) T C : da_wf d ->
  sets (first_out T (da_nt d)) d (da_alloc d = true /\ (ids_in T (da_nt d) \/ C = []) /\ ids_in C (da_nc d)) T C (fun _ _ => Some a) (setPartOfValuesSimple2 d a T C).
Proof. exact (sset2_ok d a T C). Qed.
Print Assumptions C48_simple2.
Theorem C48_simple3 {A} (d : da A) (a : A) T bC eC sC C : da_wf d -> is_range_list bC eC sC C ->
  sets (first_out T (da_nt d)) d (da_alloc d = true /\ (ids_in T (da_nt d) \/ C = []) /\ slice_in bC eC sC (da_nc d)) T C (fun _ _ => Some a) (setPartOfValuesSimple3 d a T bC eC sC).
Proof. exact (sset3_ok d a T bC eC sC C). Qed.
Print Assumptions C48_simple3.
Theorem C48_simple4 {A} (d : da A) (a : A) bT eT sT T C : da_wf d -> is_range_list bT eT sT T ->
  sets nowhere d (da_alloc d = true /\ slice_in bT eT sT (da_nt d) /\ ids_in C (da_nc d)) T C (fun _ _ => Some a) (setPartOfValuesSimple4 d a bT eT sT C).
Proof. exact (sset4_ok d a bT eT sT T C). Qed.
Print Assumptions C48_simple4.
Example C48_simple_ex : let d := DA true 2 [1; 2; 3; 4; 5; 6; 7; 8] in
  setPartOfValuesSimple1 d 0 1 4 2 1 2 1 = (Ok tt, DA true 2 [1; 2; 3; 0; 5; 6; 7; 0]) /\ setPartOfValuesSimple2 d 0 [2; 0] [1; 0] = (Ok tt, DA true 2 [0; 0; 3; 4; 0; 0; 7; 8]) /\
  setPartOfValuesSimple3 d 0 [2; -1] 0 1 1 = (Throw, DA true 2 [1; 2; 3; 4; 0; 6; 7; 8]) /\ setPartOfValuesSimple4 d 0 3 4 1 [1] = (Ok tt, DA true 2 [1; 2; 3; 4; 5; 6; 7; 0]) /\
  setPartOfValuesSimple4 d 0 3 4 1 [2] = (Throw, d).
Proof. vm_compute. done. Qed.

(** A null source is rejected; the array itself as source gives the outcome of a copy of it: memory safe, same exceptions, same shape... *)
Theorem C48_null {A} (d : da A) bT eT sT bC eC sC T C strict :
  setPartOfValues1 d Null bT eT sT bC eC sC strict = (Throw, d) /\ setPartOfValues2 d Null T C strict = (Throw, d) /\ setPartOfValues3 d Null T bC eC sC strict = (Throw, d) /\ setPartOfValues4 d Null bT eT sT C strict = (Throw, d).
Proof. exact (set_null d bT eT sT bC eC sC T C strict). Qed.
Print Assumptions C48_null.
Theorem C48_itself {A} (d : da A) bT eT sT bC eC sC T C strict :
  same_outcome d (setPartOfValues1 d Self bT eT sT bC eC sC strict) (setPartOfValues1 d (Other d) bT eT sT bC eC sC strict) /\
  same_outcome d (setPartOfValues2 d Self T C strict) (setPartOfValues2 d (Other d) T C strict) /\
  same_outcome d (setPartOfValues3 d Self T bC eC sC strict) (setPartOfValues3 d (Other d) T bC eC sC strict) /\
  same_outcome d (setPartOfValues4 d Self bT eT sT C strict) (setPartOfValues4 d (Other d) bT eT sT C strict).
Proof. exact (conj (set1_self d bT eT sT bC eC sC strict) (conj (set2_self d T C strict) (conj (set3_self d T bC eC sC strict) (set4_self d bT eT sT C strict)))). Qed.
Print Assumptions C48_itself.
(** ... but not the values of a copy: what is read may have been written before. *)
Theorem C48_itself_values_refuted : ~ forall (d : da Z) T C, da_wf d -> setPartOfValues2 d Self T C true = setPartOfValues2 d (Other d) T C true.
Proof. exact self_values_refuted. Qed.
Print Assumptions C48_itself_values_refuted.
Example C48_itself_ex : setPartOfValues2 (vec [10; 20]) Self [1; 0] [0] true = (Ok tt, vec [10; 10]) /\ setPartOfValues2 (vec [10; 20]) (Other (vec [10; 20])) [1; 0] [0] true = (Ok tt, vec [20; 10]).
Proof. vm_compute. done. Qed.

Theorem C49_contig_partial {A} (d a : da A) start sel : da_wf d -> da_wf a -> 0 <= start ->
  sets (first_out (da_vals sel) (da_nt a)) d (usable3 d a sel 1 /\ start + zlen (da_vals sel) <= da_nt d /\ ids_in (da_vals sel) (da_nt a)) (seqZ start (zlen (da_vals sel))) (seqZ 0 (da_nc d))
    (tuple_of a (da_vals sel)) (setContigPartOfSelectedValues d start (Other a) sel).
Proof. exact (contig_ok d a start sel). Qed.
Print Assumptions C49_contig_partial.
Theorem C49_slice_partial {A} (d a : da A) start bg e step F : da_wf d -> da_wf a -> 0 <= start -> 0 <= bg -> is_range_list bg e step F ->
  sets nowhere d (usable d a /\ da_nc a = da_nc d /\ slice_in bg e step (da_nt a) /\ start + zlen F <= da_nt d) (seqZ start (zlen F)) (seqZ 0 (da_nc d))
    (tuple_of a F) (setContigPartOfSelectedValuesSlice d start (Other a) bg e step).
Proof. exact (contig_slice_ok d a start bg e step F). Qed.
Print Assumptions C49_slice_partial.
Theorem C49_adv {A} (d a : da A) sel T F : da_wf d -> da_wf a -> (da_nc sel = 2 -> pairs (da_vals sel) T F) ->
  sets (first_out2 T (da_nt d) F (da_nt a)) d (usable3 d a sel 2 /\ ids_in T (da_nt d) /\ ids_in F (da_nt a)) T (seqZ 0 (da_nc d)) (tuple_of a F) (setPartOfValuesAdv d (Other a) sel).
Proof. exact (adv_ok d a sel T F). Qed.
Print Assumptions C49_adv.
Theorem C49_null {A} (d : da A) start sel bg e step :
  setContigPartOfSelectedValues d start Null sel = (Throw, d) /\ setContigPartOfSelectedValuesSlice d start Null bg e step = (Throw, d) /\ setPartOfValuesAdv d Null sel = (Throw, d).
Proof. exact (contig_null d start sel bg e step). Qed.
Print Assumptions C49_null.
Theorem C49_itself {A} (d : da A) start sel bg e step :
  same_outcome d (setContigPartOfSelectedValues d start Self sel) (setContigPartOfSelectedValues d start (Other d) sel) /\
  same_outcome d (setContigPartOfSelectedValuesSlice d start Self bg e step) (setContigPartOfSelectedValuesSlice d start (Other d) bg e step) /\
  same_outcome d (setPartOfValuesAdv d Self sel) (setPartOfValuesAdv d (Other d) sel).
Proof. exact (conj (contig_self d start sel) (conj (contig_slice_self d start bg e step) (adv_self d sel))). Qed.
Print Assumptions C49_itself.
Example C49_ex : let d := DA true 2 [1; 2; 3; 4; 5; 6; 7; 8] in let a := DA true 2 [10; 20; 30; 40; 50; 60] in
  setContigPartOfSelectedValues d 1 (Other a) (vec [2; 0]) = (Ok tt, DA true 2 [1; 2; 50; 60; 10; 20; 7; 8]) /\
  setContigPartOfSelectedValues d 1 (Other a) (vec [2; 3]) = (Throw, DA true 2 [1; 2; 50; 60; 5; 6; 7; 8]) /\
  setContigPartOfSelectedValuesSlice d 2 (Other a) 0 3 2 = (Ok tt, DA true 2 [1; 2; 3; 4; 10; 20; 50; 60]) /\
  setContigPartOfSelectedValuesSlice d 3 (Other a) 0 3 2 = (Throw, d) /\
  pairs [3; 0; 0; 2] [3; 0] [0; 2] /\ setPartOfValuesAdv d (Other a) (DA true 2 [3; 0; 0; 2]) = (Ok tt, DA true 2 [50; 60; 3; 4; 5; 6; 10; 20]).
Proof. cbv zeta. do 4 (split; [vm_compute; done|]). split; [|vm_compute; done]. split; [done|]. split; [done|]. change (zlen [3; 0]) with 2. intros i Hi. assert (i = 0 \/ i = 1) as [-> | ->] by lia; done. Qed.
(** Missing: a negative [start], and a negative begin of slice, are not rejected and memory is accessed out of the arrays. *)
Theorem C49_start_refuted : ~ forall (d a : da Z) start sel, da_wf d -> da_wf a -> da_wf sel -> fst (setContigPartOfSelectedValues d start (Other a) sel) <> UB.
Proof. exact contig_start_refuted. Qed.
Print Assumptions C49_start_refuted.
Theorem C49_slice_start_refuted : ~ forall (d a : da Z) start bg e step, da_wf d -> da_wf a -> fst (setContigPartOfSelectedValuesSlice d start (Other a) bg e step) <> UB.
Proof. exact contig_slice_start_refuted. Qed.
Print Assumptions C49_slice_start_refuted.
Theorem C49_slice_begin_refuted : ~ forall (d a : da Z) start bg e step, da_wf d -> da_wf a -> 0 <= start -> fst (setContigPartOfSelectedValuesSlice d start (Other a) bg e step) <> UB.
Proof. exact contig_slice_begin_refuted. Qed.
Print Assumptions C49_slice_begin_refuted.
