(** C57: the transfers of a remapper (transfer, partialTransfer, reverseTransfer); C58: its crude matrix (setCrudeMatrix, nullifiedTinyCoeffInCrudeMatrix(Abs), getMaxValueInCrudeMatrix, the transposition, the product for extruded meshes).
    [interpolated M src trg i c] (RemapSpec) is the sum over the coefficients (i,j,v) of row i of v / divisor * the value of entity j of the source; the divisor is chosen by the nature of the field.
    [ready], [valued], [receives]: the fields agree with what was prepared; [reachable_clean r]: [r] is met after any calls, without removal of coefficients between a transfer and the next matrix. *)
From Coq Require Import QArith Qcanon Qcabs.
From Verif Require Import Base RemapModel RemapSpec RemapProofs5 RemapProofs6.
Local Open Scope Z_scope.

(** The complete statement has no condition on the removals of coefficients, nor on IntensiveConservation with a mesh of dimension -1 (in [ready]): both are refuted below. *)
Theorem C57_transfer_partial r src trg dft : reachable_clean r -> ready r src trg -> valued src -> receives trg src -> defined (rm_mat r) src trg ->
  exists r' trg', transfer r src trg dft = (Ok tt, (r', trg')) /\ kept r r' /\ same_support trg' trg /\ components trg' = components src /\
    (forall i c, 0 <= i < fl_expected trg -> 0 <= c < default 0 (components src) ->
      (row_reached (rm_mat r) i -> value trg' i c = Some (interpolated (rm_mat r) src trg i c)) /\
      (~ row_reached (rm_mat r) i -> value trg' i c = Some dft)).
Proof. exact (transfer_all r src trg dft). Qed.
Print Assumptions C57_transfer_partial.
Theorem C57_partial_transfer_partial r src trg : reachable_clean r -> ready r src trg -> valued src -> receives trg src -> fl_arr trg <> None -> defined (rm_mat r) src trg ->
  exists r' trg', partialTransfer r src trg = (Ok tt, (r', trg')) /\ kept r r' /\ same_support trg' trg /\ components trg' = components src /\
    (forall i c, 0 <= i < fl_expected trg -> 0 <= c < default 0 (components src) ->
      (row_reached (rm_mat r) i -> value trg' i c = Some (interpolated (rm_mat r) src trg i c)) /\
      (~ row_reached (rm_mat r) i -> value trg' i c = value trg i c)).
Proof. exact (partial_all r src trg). Qed.
Print Assumptions C57_partial_transfer_partial.
(** The reverse transfer does not suffer from the removals. *)
Theorem C57_reverse r src trg dft : reachable r -> ready r src trg -> valued trg -> receives src trg -> rdefined (rm_mat r) src trg ->
  exists r' src', reverseTransfer r src trg dft = (Ok tt, (r', src')) /\ kept r r' /\ same_support src' src /\ components src' = components trg /\
    (forall j c, 0 <= j < fl_expected src -> 0 <= c < default 0 (components trg) ->
      (col_reached (rm_mat r) j -> value src' j c = Some (rinterpolated (rm_mat r) src trg j c)) /\
      (~ col_reached (rm_mat r) j -> value src' j c = Some dft)).
Proof. exact (reverse_all r src trg dft). Qed.
Print Assumptions C57_reverse.
(** The reverse transfer is the transfer of the transposed matrix. *)
Theorem C57_reverse_transposed r r2 src trg dft : reachable r -> reachable_clean r2 -> ready r src trg -> ready r2 trg src -> transposed (rm_mat r) (rm_mat r2) ->
  valued trg -> receives src trg -> rdefined (rm_mat r) src trg ->
  exists r' r2' src1 src2, reverseTransfer r src trg dft = (Ok tt, (r', src1)) /\ transfer r2 trg src dft = (Ok tt, (r2', src2)) /\
    components src1 = components src2 /\
    forall j c, 0 <= j < fl_expected src -> 0 <= c < default 0 (components trg) -> value src1 j c = value src2 j c.
Proof. exact (reverse_transposed r r2 src trg dft). Qed.
Print Assumptions C57_reverse_transposed.
(** What the natures promise. ExtensiveConservation: the sum of the values. *)
Theorem C57_conserved_sum r src trg c : reachable_clean r -> ready r src trg -> valued src -> receives trg src -> defined (rm_mat r) src trg ->
  fl_nature src = ExtensiveConservation -> (forall j, 0 <= j < fl_expected src -> col_reached (rm_mat r) j) -> 0 <= c < default 0 (components src) ->
  exists r' trg', transfer r src trg 0%Qc = (Ok tt, (r', trg')) /\ sumZ (fl_expected trg) (fun i => val trg' i c) = sumZ (fl_expected src) (fun j => val src j c).
Proof. exact (sum_all r src trg c). Qed.
Print Assumptions C57_conserved_sum.
(** IntensiveConservation: the integral over the target is that over the part of the source that is covered. *)
Theorem C57_conserved_integral r src trg c : reachable_clean r -> ready r src trg -> valued src -> receives trg src -> defined (rm_mat r) src trg ->
  fl_nature src = IntensiveConservation -> 0 <= c < default 0 (components src) ->
  exists r' trg', transfer r src trg 0%Qc = (Ok tt, (r', trg')) /\
    sumZ (fl_expected trg) (fun i => measure trg src i * val trg' i c)%Qc = sumZ (fl_expected src) (fun j => col_sum (rm_mat r) j * val src j c)%Qc.
Proof. exact (integral_all r src trg c). Qed.
Print Assumptions C57_conserved_integral.
(** ExtensiveMaximum: a field proportional to the measure stays so, with the part of the target that is covered. *)
Theorem C57_proportional r src trg dft c k : reachable_clean r -> ready r src trg -> valued src -> receives trg src -> defined (rm_mat r) src trg ->
  fl_nature src = ExtensiveMaximum -> 0 <= c < default 0 (components src) -> (forall j, 0 <= j < fl_expected src -> val src j c = k * measure src trg j)%Qc ->
  exists r' trg', transfer r src trg dft = (Ok tt, (r', trg')) /\
    forall i, 0 <= i < fl_expected trg -> row_reached (rm_mat r) i -> value trg' i c = Some (k * row_sum (rm_mat r) i)%Qc.
Proof. exact (density_all r src trg dft c k). Qed.
Print Assumptions C57_proportional.
(** IntensiveMaximum: no value out of the bounds of the source, a constant stays constant. *)
Theorem C57_maximum r src trg dft c : reachable_clean r -> ready r src trg -> valued src -> receives trg src ->
  fl_nature src = IntensiveMaximum -> (forall i j v, (i, j, v) ∈ coeffs (rm_mat r) -> 0 < v)%Qc -> 0 <= c < default 0 (components src) ->
  exists r' trg', transfer r src trg dft = (Ok tt, (r', trg')) /\
    forall i, 0 <= i < fl_expected trg -> row_reached (rm_mat r) i -> exists x, value trg' i c = Some x /\
      forall lo hi, (forall j v, (i, j, v) ∈ coeffs (rm_mat r) -> lo <= val src j c <= hi)%Qc -> (lo <= x <= hi)%Qc.
Proof. exact (between_all r src trg dft c). Qed.
Print Assumptions C57_maximum.
Theorem C57_constant r src trg dft c k : reachable_clean r -> ready r src trg -> valued src -> receives trg src -> defined (rm_mat r) src trg ->
  fl_nature src = IntensiveMaximum -> 0 <= c < default 0 (components src) -> (forall j, 0 <= j < fl_expected src -> val src j c = k) ->
  exists r' trg', transfer r src trg dft = (Ok tt, (r', trg')) /\
    forall i, 0 <= i < fl_expected trg -> row_reached (rm_mat r) i -> value trg' i c = Some k.
Proof. exact (constant_all r src trg dft c k). Qed.
Print Assumptions C57_constant.
Example C57_hypotheses n : n <> NoNature -> reachable_clean exR /\ ready exR (exS n) (exT n) /\ valued (exS n) /\ receives (exT n) (exS n) /\ defined (rm_mat exR) (exS n) (exT n) /\
  (forall j, 0 <= j < fl_expected (exS ExtensiveConservation) -> col_reached (rm_mat exR) j) /\ (forall i j v, (i, j, v) ∈ coeffs (rm_mat exR) -> 0 < v)%Qc.
Proof. intros Hn. exact (conj exR_ok (conj (ex_ready n Hn) (conj (ex_valued n) (conj (ex_receives n) (conj (ex_defined n Hn) (conj ex_reached ex_positive)))))). Qed.
Example C57_values : shown (transfer exR (exS IntensiveMaximum) (exT IntensiveMaximum) 0%Qc) = Ok [Some (4#1); Some (22#5)]%Q /\ shown (transfer exR (exS IntensiveConservation) (exT IntensiveConservation) 0%Qc) = Ok [Some (4#1); Some (22#5)]%Q /\
  shown (transfer exR (exS ExtensiveConservation) (exT ExtensiveConservation) 0%Qc) = Ok [Some (6#1); Some (7#1)]%Q /\ shown (transfer exR (exS ExtensiveMaximum) (exT ExtensiveMaximum) 0%Qc) = Ok [Some (6#1); Some (7#1)]%Q.
Proof. vm_compute. done. Qed.
(** Fields that do not agree with the preparation are refused and nothing changes ([isDft]: transfer; otherwise partialTransfer). *)
Theorem C57_refused r src trg isDft dft :
  fl_arr src = None \/ rm_src r = None \/ rm_trg r = None \/ fl_nature src <> fl_nature trg \/
  (exists s, rm_src r = Some s /\ (ft_disc s <> fl_disc src \/ ft_expected s <> fl_expected src)) \/ (exists t, rm_trg r = Some t /\ ft_disc t <> fl_disc trg) \/
  (isDft = false /\ fl_arr trg = None) \/ (fl_arr trg <> None /\ components trg <> components src) ->
  transferUnderground r src trg isDft dft = (Throw, (r, trg)).
Proof. exact (refused r src trg isDft dft). Qed.
Print Assumptions C57_refused.
Theorem C57_reverse_refused r src trg dft :
  fl_arr trg = None \/ rm_src r = None \/ rm_trg r = None \/ fl_nature src <> fl_nature trg \/
  (exists t, rm_trg r = Some t /\ (ft_disc t <> fl_disc trg \/ ft_expected t <> fl_expected trg)) \/ (exists s, rm_src r = Some s /\ ft_disc s <> fl_disc src) \/
  (fl_arr src <> None /\ components src <> components trg) ->
  reverseTransfer r src trg dft = (Throw, (r, src)).
Proof. exact (rrefused r src trg dft). Qed.
Print Assumptions C57_reverse_refused.
Example C57_refused_ex : fl_nature (exS ExtensiveMaximum) <> fl_nature (exT IntensiveMaximum) /\ transfer exR (exS ExtensiveMaximum) (exT IntensiveMaximum) 0%Qc = (Throw, (exR, exT IntensiveMaximum)).
Proof. split; [done|vm_compute; done]. Qed.
(** A target with another number of entities than what was prepared is not refused: the transfer writes out of its array. *)
Theorem C57_small_target_refuted : ~ forall r src trg dft, reachable_clean r -> valued src -> mesh_ok src -> mesh_ok trg -> fl_nature src = fl_nature trg -> fst (transfer r src trg dft) <> UB.
Proof. exact small_target_refuted. Qed.
Print Assumptions C57_small_target_refuted.
(** After a removal of coefficients that follows a transfer, the divisors are those of other coefficients. *)
Theorem C57_after_removal_refuted : ~ forall r src trg dft r' trg' i c, reachable r -> ready r src trg -> valued src -> receives trg src -> defined (rm_mat r) src trg ->
  transfer r src trg dft = (Ok tt, (r', trg')) -> 0 <= i < fl_expected trg -> 0 <= c < default 0 (components src) -> row_reached (rm_mat r) i -> value trg' i c = Some (interpolated (rm_mat r) src trg i c).
Proof. exact after_removal_refuted. Qed.
Print Assumptions C57_after_removal_refuted.
(** [ready] without its last clause: IntensiveConservation towards a mesh of dimension -1. *)
Theorem C57_point_refuted : ~ forall r src trg dft r' trg' i c, reachable_clean r -> agree r src trg -> complete r src trg -> fl_nature src <> NoNature -> mesh_ok src -> mesh_ok trg -> one_point_at_most src trg ->
  valued src -> receives trg src -> defined (rm_mat r) src trg ->
  transfer r src trg dft = (Ok tt, (r', trg')) -> 0 <= i < fl_expected trg -> 0 <= c < default 0 (components src) -> row_reached (rm_mat r) i -> value trg' i c = Some (interpolated (rm_mat r) src trg i c).
Proof. exact point_refuted. Qed.
Print Assumptions C57_point_refuted.
(** After a matrix that was refused, a transfer succeeds and gives an array without values. *)
Theorem C57_refused_matrix_refuted : ~ forall r src trg dft r' trg' i c, reachable_clean r -> agree r src trg -> fl_nature src <> NoNature -> mesh_ok src -> mesh_ok trg -> valued src -> fl_dim src <> -1 -> fl_dim trg <> -1 ->
  transfer r src trg dft = (Ok tt, (r', trg')) -> 0 <= i < fl_expected trg -> 0 <= c < default 0 (components src) -> value trg' i c <> None.
Proof. exact refused_matrix_refuted. Qed.
Print Assumptions C57_refused_matrix_refuted.
(** Without nature the transfer throws, and a target that had no array has one, without values. *)
Theorem C57_no_nature_refuted : ~ forall r src trg dft r' trg', reachable_clean r -> agree r src trg -> complete r src trg -> valued src -> mesh_ok src -> mesh_ok trg -> transfer r src trg dft = (Throw, (r', trg')) -> trg' = trg.
Proof. exact no_nature_refuted. Qed.
Print Assumptions C57_no_nature_refuted.

(** ** The crude matrix *)
Theorem C58_set s t M : zlen M = ft_expected t -> columns_below (ft_expected s) M ->
  exists r, setCrudeMatrix s t M = (Ok tt, r) /\ rm_src r = Some s /\ rm_trg r = Some t /\ rm_mat r = M.
Proof. intros H1 H2. rewrite (set_ok s t M H1 H2). eexists. done. Qed.
Print Assumptions C58_set.
Theorem C58_set_refused s t M : zlen M <> ft_expected t \/ ~ columns_below (ft_expected s) M ->
  exists r, setCrudeMatrix s t M = (Throw, r) /\ rm_mat r = [].
Proof. intros H. rewrite (set_throw s t M H). eexists. done. Qed.
Print Assumptions C58_set_refused.
Theorem C58_reverse M n : is_matrix M -> 0 <= n -> columns_below n M ->
  exists N, ReverseMatrix M n = Ok N /\ zlen N = n /\ is_matrix N /\ transposed M N.
Proof. exact (ReverseMatrix_ok M n). Qed.
Print Assumptions C58_reverse.
Theorem C58_nullify r eps : reachable r -> exists r', nullifiedTinyCoeffInCrudeMatrixAbs r eps = (zlen (tiny eps (rm_mat r)), r') /\
  rm_src r' = rm_src r /\ rm_trg r' = rm_trg r /\ zlen (rm_mat r') = zlen (rm_mat r) /\ is_matrix (rm_mat r') /\
  (forall i j v, (i, j, v) ∈ coeffs (rm_mat r') <-> (i, j, v) ∈ coeffs (rm_mat r) /\ eps < Qcabs v)%Qc.
Proof. intros H. exact (nullify_ok r eps (proj1 (reachable_matrix r H))). Qed.
Print Assumptions C58_nullify.
Theorem C58_max r : let x := getMaxValueInCrudeMatrix r in
  (forall i j v, (i, j, v) ∈ coeffs (rm_mat r) -> Qcabs v <= x)%Qc /\ ((x = 0%Qc /\ coeffs (rm_mat r) = []) \/ exists i j v, (i, j, v) ∈ coeffs (rm_mat r) /\ x = Qcabs v).
Proof. exact (getMax_ok r). Qed.
Print Assumptions C58_max.
(** The limit relative to the greatest coefficient; -1 exactly when all the coefficients are null. *)
Theorem C58_nullify_relative r scale :
  (getMaxValueInCrudeMatrix r = 0%Qc -> nullifiedTinyCoeffInCrudeMatrix r scale = (-1, r) /\ forall i j v, (i, j, v) ∈ coeffs (rm_mat r) -> v = 0%Qc) /\
  (getMaxValueInCrudeMatrix r <> 0%Qc -> nullifiedTinyCoeffInCrudeMatrix r scale = nullifiedTinyCoeffInCrudeMatrixAbs r (scale * getMaxValueInCrudeMatrix r)%Qc).
Proof. exact (nullify_relative r scale). Qed.
Print Assumptions C58_nullify_relative.
(** Extruded meshes: the coefficients are the products of those of the 1D meshes and of the 2D meshes, at the 3D cells that the correspondences give. *)
Theorem C58_extruded m1 m2 corrSrc n1S n2S corrTrg :
  is_matrix m1 -> is_matrix m2 -> columns_below n1S m1 -> columns_below n2S m2 ->
  zlen corrSrc = n1S * n2S -> zlen corrTrg = zlen m1 * zlen m2 ->
  NoDup corrSrc -> NoDup corrTrg -> (forall x, x ∈ corrTrg -> 0 <= x < zlen m1 * zlen m2) ->
  exists M, convolution m1 m2 corrSrc n2S corrTrg = Ok M /\ zlen M = zlen m1 * zlen m2 /\ is_matrix M /\
    forall t s v, (t, s, v) ∈ coeffs M <-> exists i1 j1 v1 i2 j2 v2, (i1, j1, v1) ∈ coeffs m1 /\ (i2, j2, v2) ∈ coeffs m2 /\
      corrTrg @ (i1 * zlen m2 + i2) = Some t /\ corrSrc @ (j1 * n2S + j2) = Some s /\ v = (v1 * v2)%Qc.
Proof. exact (convolution_ok m1 m2 corrSrc n1S n2S corrTrg). Qed.
Print Assumptions C58_extruded.
Example C58_ex : is_matrix exM /\ columns_below 3 exM /\ zlen (tiny (q 3 4) exM) = 2 /\ plain (ReverseMatrix exM 3) = Ok [[(0, (1#1)%Q)]; [(0, (1#2)%Q); (1, (1#2)%Q)]; [(1, (2#1)%Q)]] /\
  plain (convolution [[(0, q 1 2)]; [(0, q 1 2)]] exM [0; 1; 2] 3 [3; 2; 1; 0]) = Ok [[(1, (1#4)%Q); (2, (1#1)%Q)]; [(0, (1#2)%Q); (1, (1#4)%Q)]; [(1, (1#4)%Q); (2, (1#1)%Q)]; [(0, (1#2)%Q); (1, (1#4)%Q)]].
Proof. split; [exact exM_matrix|]. split; [apply colsb_ok; done|]. vm_compute. done. Qed.
