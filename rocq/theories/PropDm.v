(** C103: dense matrices. *)
From Coq Require Import QArith Qcanon.
From Verif Require Import Base ArrLib DataArray RemapSpec IvModel IvSpec IvExamples DmModel DmSpec DmProofs DmProofs2 DmExamples.
Local Open Scope Z_scope.

(** A matrix is made on an array with one component and the right number of values, and on no other. *)
Theorem C103_new h p r c m : (forall q, p = Some q -> 0 <= q < zlen h) ->
  (New h p r c = Ok m <-> exists q l, p = Some q /\ is_array h q l /\ 0 <= r /\ 0 <= c /\ zlen l = r * c /\ m = DM r c q) /\ (New h p r c = Throw \/ exists m, New h p r c = Ok m).
Proof. exact (new_iff h p r c m). Qed.
Print Assumptions C103_new.
Example C103_new_23 : New h6 (Some 0) 2 3 = Ok a23 /\ New h6 (Some 0) 2 2 = Throw /\ New h6 None 2 3 = Throw /\ New h6 (Some 0) (-2) (-3) = Throw.
Proof. split; [|split; [|split]]; reflexivity. Qed.

(** A deep copy is the same matrix in a new array, a shallow one in the same array. *)
Theorem C103_copies h m r c M : denotes h m r c M -> shallowCpy h m = Ok m /\ exists x, deepCopy h m = Ok x /\ fresh h x r c M.
Proof. intros D. exact (conj (shallow_ok h m r c M D) (copy_ok h m r c M D)). Qed.
Print Assumptions C103_copies.
Example C103_copies_23 : denotes h6 a23 2 3 (mat_of 3 m23) /\ gives (deepCopy h6 a23) 2 3 m23 = true.
Proof. split; [exact a23_ok|]. vm_compute. reflexivity. Qed.

(** The array given to a matrix that exists; -1 stands for the present size. *)
Theorem C103_rebuild h m q l r c : is_array h q l -> -1 <= r -> -1 <= c -> 0 <= dm_rows m -> 0 <= dm_cols m -> let r' := if r =? -1 then dm_rows m else r in let c' := if c =? -1 then dm_cols m else c in
  (zlen l = r' * c' -> reBuild h m (Some q) r c = Ok (DM r' c' q)) /\ (zlen l <> r' * c' -> reBuild h m (Some q) r c = Throw).
Proof. exact (rebuild_ok h m q l r c). Qed.
Print Assumptions C103_rebuild.
Example C103_rebuild_23 : is_array h6 1 m32 /\ reBuild h6 a23 (Some 1) (-1) (-1) = Ok b23 /\ reBuild h6 a23 (Some 2) (-1) 1 = Throw.
Proof. split; [reflexivity|]. split; reflexivity. Qed.

(** Another shape keeps the values in their order. *)
Theorem C103_reshape h m r c M r' c' : denotes h m r c M -> 0 <= r' -> 0 <= c' -> r' * c' = r * c ->
  exists m' M', reShape m r' c' = Ok m' /\ dm_data m' = dm_data m /\ denotes h m' r' c' M' /\ forall i j i' j', 0 <= i < r -> 0 <= j < c -> 0 <= i' < r' -> 0 <= j' < c' -> i * c + j = i' * c' + j' -> M' i' j' = M i j.
Proof. exact (reshape_ok h m r c M r' c'). Qed.
Print Assumptions C103_reshape.
Theorem C103_reshape_bad m r' c' : r' < 0 \/ c' < 0 \/ r' * c' <> dm_rows m * dm_cols m -> reShape m r' c' = Throw.
Proof. exact (reshape_bad m r' c'). Qed.
Print Assumptions C103_reshape_bad.
Example C103_reshape_23 : denotes h6 a23 2 3 (mat_of 3 m23) /\ reShape a23 3 2 = Ok (DM 3 2 0) /\ reShape a23 2 2 = Throw.
Proof. split; [exact a23_ok|]. split; reflexivity. Qed.

(** The transposed matrix, in the same array; the other arrays are as before. *)
Theorem C103_transpose h m r c M : denotes h m r c M -> 0 < c ->
  exists h' m', transpose h m = Ok (h', m') /\ dm_data m' = dm_data m /\ denotes h' m' c r (fun i j => M j i) /\ kept_but (dm_data m) h h'.
Proof. intros D Hc. destruct (transpose_ok h m r c M D Hc) as (h' & m' & H1 & H2 & H3 & H4 & _). exists h', m'. exact (conj H1 (conj H2 (conj H3 H4))). Qed.
Print Assumptions C103_transpose.
Example C103_transpose_23 : denotes h6 a23 2 3 (mat_of 3 m23) /\ gives (transpose h6 a23) 3 2 (q [2; 8; 4; 10; 6; 12]) = true.
Proof. split; [exact a23_ok|]. vm_compute. reflexivity. Qed.
(** A matrix without column has a transposed matrix.  It is refused. *)
Theorem C103_transpose_empty_refuted h m r M : denotes h m r 0 M -> transpose h m = Throw.
Proof. exact (transpose_empty h m r M). Qed.
Print Assumptions C103_transpose_empty_refuted.
Example C103_transpose_empty_20 : denotes h0 (DM 2 0 0) 2 0 (fun _ _ => 0%Qc).
Proof. exact e20_ok. Qed.
(** A matrix that shares its array keeps its shape but its values are moved. *)
Theorem C103_shared_refuted h m m2 r c M : denotes h m r c M -> 0 < c -> denotes h m2 r c M -> dm_data m2 = dm_data m ->
  exists h' m' M2, transpose h m = Ok (h', m') /\ denotes h' m2 r c M2 /\ forall i j i' j', 0 <= i < r -> 0 <= j < c -> 0 <= i' < r -> 0 <= j' < c -> i' * c + j' = j * r + i -> M2 i' j' = M i j.
Proof. exact (shared_ok h m m2 r c M). Qed.
Print Assumptions C103_shared_refuted.
Example C103_shared_23 : denotes h6 a23 2 3 (mat_of 3 m23) /\ match transpose h6 a23 with Ok (h, _) => has h a23 2 3 (q [2; 8; 4; 10; 6; 12]) | _ => false end = true.
Proof. split; [exact a23_ok|]. vm_compute. reflexivity. Qed.

(** Sums and differences. *)
Theorem C103_add h a b r c MA MB : denotes h a r c MA -> denotes h b r c MB -> exists x, Add h a b = Ok x /\ fresh h x r c (comb Qcplus MA MB).
Proof. exact (add_ok h a b r c MA MB). Qed.
Print Assumptions C103_add.
Theorem C103_sub h a b r c MA MB : denotes h a r c MA -> denotes h b r c MB -> exists x, Substract h a b = Ok x /\ fresh h x r c (comb Qcminus MA MB).
Proof. exact (sub_ok h a b r c MA MB). Qed.
Print Assumptions C103_sub.
Theorem C103_add_equal h a b r c MA MB : denotes h a r c MA -> denotes h b r c MB -> exists h', addEqual h a b = Ok h' /\ denotes h' a r c (comb Qcplus MA MB) /\ kept_but (dm_data a) h h'.
Proof. exact (addEqual_ok h a b r c MA MB). Qed.
Print Assumptions C103_add_equal.
Theorem C103_sub_equal h a b r c MA MB : denotes h a r c MA -> denotes h b r c MB -> exists h', substractEqual h a b = Ok h' /\ denotes h' a r c (comb Qcminus MA MB) /\ kept_but (dm_data a) h h'.
Proof. exact (subEqual_ok h a b r c MA MB). Qed.
Print Assumptions C103_sub_equal.
Theorem C103_sizes h a b r c r' c' MA MB : denotes h a r c MA -> denotes h b r' c' MB -> r <> r' \/ c <> c' -> Add h a b = Throw /\ Substract h a b = Throw /\ addEqual h a b = Throw /\ substractEqual h a b = Throw.
Proof. exact (sizes_bad h a b r c r' c' MA MB). Qed.
Print Assumptions C103_sizes.
Example C103_add_23 : denotes h6 a23 2 3 (mat_of 3 m23) /\ denotes h6 b23 2 3 (mat_of 3 m32) /\ denotes h6 b32 3 2 (mat_of 2 m32) /\ gives (Add h6 a23 b23) 2 3 (q [4; 4; 6; 10; 12; 10]) = true /\
  gives (Substract h6 a23 b23) 2 3 (q [0; 4; 6; 6; 8; 14]) = true /\ givesh (addEqual h6 a23 b23) a23 2 3 (q [4; 4; 6; 10; 12; 10]) = true /\ givesh (addEqual h6 a23 a23) a23 2 3 (q [4; 8; 12; 16; 20; 24]) = true /\ givesh (substractEqual h6 a23 b23) a23 2 3 (q [0; 4; 6; 6; 8; 14]) = true.
Proof. split; [exact a23_ok|]. split; [exact b23_ok|]. split; [exact b32_ok|]. vm_compute. split; [reflexivity|]. split; [reflexivity|]. split; [reflexivity|]. split; reflexivity. Qed.

(** Products. *)
Theorem C103_multiply h a b r n c MA MB : denotes h a r n MA -> denotes h b n c MB -> exists x MC, Multiply h a b = Ok x /\ fresh h x r c MC /\ is_product r n c MA MB MC.
Proof. exact (multiply_ok h a b r n c MA MB). Qed.
Print Assumptions C103_multiply.
Theorem C103_multiply_sizes h a b r n n' c MA MB : denotes h a r n MA -> denotes h b n' c MB -> n <> n' -> Multiply h a b = Throw.
Proof. exact (multiply_bad h a b r n n' c MA MB). Qed.
Print Assumptions C103_multiply_sizes.
(** An array stands for a matrix with one column. *)
Theorem C103_multiply_array h a p v : is_array h p v -> MultiplyArr h a (Some p) = Multiply h a (DM (zlen v) 1 p) /\ denotes h (DM (zlen v) 1 p) (zlen v) 1 (fun i _ => default 0%Qc (v @ i)).
Proof. intros HA. exact (conj (multiplyArr_eq h a p v HA) (column_denotes h p v HA)). Qed.
Print Assumptions C103_multiply_array.
Theorem C103_vector h m r n M p v : denotes h m r n M -> is_array h p v -> (zlen v = n -> exists h' l, MatVecMult h m (Some p) = Ok (h', zlen h) /\ is_array h' (zlen h) l /\ image r n M v l /\ kept h h') /\ (zlen v <> n -> MatVecMult h m (Some p) = Throw).
Proof. intros D HA. exact (conj (matvec_ok h m r n M p v D HA) (matvec_bad h m r n M p v D HA)). Qed.
Print Assumptions C103_vector.
Example C103_multiply_23 : denotes h6 a23 2 3 (mat_of 3 m23) /\ denotes h6 b32 3 2 (mat_of 2 m32) /\ is_array h6 2 (q [2; -2; 4]) /\ gives (Multiply h6 a23 b32) 2 2 (q [8; -2; 20; -2]) = true /\
  gives (MultiplyArr h6 a23 (Some 2)) 2 1 (q [10; 22]) = true /\ match MatVecMult h6 a23 (Some 2) with Ok (h, p) => has h (DM 2 1 p) 2 1 (q [10; 22]) | _ => false end = true.
Proof. split; [exact a23_ok|]. split; [exact b32_ok|]. split; [reflexivity|]. vm_compute. split; [reflexivity|]. split; reflexivity. Qed.

(** Every sequence of calls, with values written in the arrays in between, leaves matrices with the right number of values, and is defined. *)
Theorem C103_history ops s : sound s -> exists s', run ops s = Ok s' /\ sound s'.
Proof. exact (run_ok ops s). Qed.
Print Assumptions C103_history.
Example C103_history_3 : sound (h6, [a23; b32; b23]) /\ match run [OMul 0 1; OShallow 0; OTranspose 0; OAdd 3 3; OAddEq 0 1; OReShape 0 2 3; OReBuild 3 (Some 2) 1 3; OWrite 2 1 1%Qc; OVec 0 (Some 2); OAdd 0 1] (h6, [a23; b32; b23]) with
  | Ok (h, ms) => (zlen h =? 6) && (zlen ms =? 6) && match ms @ 0 with Some m => has h m 2 3 (q [4; 8; 4; 12; 8; 10]) | None => false end | _ => false end = true.
Proof. split; [exact sound3|]. vm_compute. reflexivity. Qed.
(** An array shortened by its user is not noticed: the product reads past its end. *)
Theorem C103_resized_refuted : exists h h' m, denotes h m 1 1 (fun _ _ => 1%Qc) /\ is_array h' (dm_data m) [] /\ Multiply h' m m = UB.
Proof. exists [DA true 1 [1%Qc]], [DA true 1 []], (DM 1 1 0). split; [|split; reflexivity]. split; [lia|]. split; [lia|]. split; [reflexivity|]. split; [reflexivity|]. exists [1%Qc]. split; [reflexivity|]. split; [reflexivity|]. intros i j Hi Hj. assert (i = 0) as -> by lia. assert (j = 0) as -> by lia. reflexivity. Qed.
Print Assumptions C103_resized_refuted.
