(** Concrete transfers, and the cases that the code mishandles. *)
From Coq Require Import QArith Qcanon Qcabs ZifyBool ZifyNat.
From Verif Require Import Base RemapModel RemapSpec RemapProofs5.
Local Open Scope Z_scope.

(** Three source cells, two target cells. *)
Definition q (n : Z) (d : positive) : Qc := Q2Qc (n # d).
Definition exM : matrix := [[(0, q 1 1); (1, q 1 2)]; [(1, q 1 2); (2, q 2 1)]].
Definition exS (n : nature) : field := FL 0 n 3 2 [q 1 1; q 1 1; q 2 1] (Some (1, [Some (q 3 1); Some (q 6 1); Some (q 4 1)])).
Definition exT (n : nature) : field := FL 0 n 2 2 [q 3 2; q 5 2] None.
Definition exR : remapper := snd (setCrudeMatrix (FT 0 3) (FT 0 2) exM).
(** The values of a field, as plain rationals. *)
Definition shown (e : effect) : res (list (option Q)) := match fst e with Ok _ => Ok (map (option_map this) (match fl_arr (snd (snd e)) with Some (_, l) => l | None => [] end)) | Throw => Throw | UB => UB | Fuel => Fuel end.
Definition plain (r : res matrix) : res (list (list (Z * Q))) := match r with Ok M => Ok (map (map (fun '(j, v) => (j, this v))) M) | Throw => Throw | UB => UB | Fuel => Fuel end.

Definition colsb (n : Z) (M : matrix) : bool := forallb (fun '(_, j, _) => (0 <=? j) && (j <? n)) (coeffs M).
Lemma colsb_ok n M : colsb n M = true -> columns_below n M.
Proof. intros H i j v He. unfold colsb in H. rewrite forallb_forall in H. apply elem_of_list_In in He. specialize (H _ He). cbn in H. lia. Qed.
Lemma exM_matrix : is_matrix exM.
Proof. unfold is_matrix, is_map, exM. repeat constructor; cbn; repeat constructor; lia. Qed.
Lemma exR_ok : reachable_clean exR.
Proof. exists [SetMatrix (FT 0 3) (FT 0 2) exM]. split; [|done]. constructor; [|done]. split; [apply exM_matrix|done]. Qed.
Lemma ex_ready n : n <> NoNature -> ready exR (exS n) (exT n).
Proof.
  intros Hn. unfold ready, agree, complete, mesh_ok, one_point_at_most. cbn [exS exT fl_nature fl_expected fl_dim fl_measure].
  assert (E : exR = RM (Some (FT 0 3)) (Some (FT 0 2)) exM [[]; []] [[]; []; []]) by (vm_compute; done).
  rewrite E. cbn [rm_src rm_trg rm_mat rm_deno rm_denoR]. split; [split; [done|]; by exists (FT 0 3), (FT 0 2)|]. repeat (split; try done; try lia).
Qed.
Lemma ex_valued n : valued (exS n).
Proof. exists 1, [Some (q 3 1); Some (q 6 1); Some (q 4 1)]. split; [done|]. split; [done|]. split; [done|]. repeat constructor; done. Qed.
Lemma ex_receives n : receives (exT n) (exS n).
Proof. split; [intros nc l Hx; done|by left]. Qed.
Definition nonzerob (M : matrix) (g : Z -> Z -> Qc) : bool := forallb (fun '(i, j, _) => negb (Qeq_bool (g i j) 0)) (coeffs M).
Lemma nonzerob_ok M g : nonzerob M g = true -> forall i j v, (i, j, v) ∈ coeffs M -> g i j <> 0%Qc.
Proof.
  intros H i j v He Hx. unfold nonzerob in H. rewrite forallb_forall in H. apply elem_of_list_In in He. specialize (H _ He). cbn in H. by rewrite Hx in H.
Qed.
Lemma ex_defined n : n <> NoNature -> defined (rm_mat exR) (exS n) (exT n).
Proof. intros Hn. unfold defined. apply (nonzerob_ok _ (divisor (rm_mat exR) (exS n) (exT n))). destruct n; try done; vm_compute; done. Qed.
Lemma ex_reached : forall j, 0 <= j < fl_expected (exS ExtensiveConservation) -> col_reached (rm_mat exR) j.
Proof.
  intros j Hj. cbn in Hj. unfold col_reached. assert (E : rm_mat exR = exM) by (vm_compute; done). rewrite E.
  assert (E2 : coeffs exM = [(0, 0, q 1 1); (0, 1, q 1 2); (1, 1, q 1 2); (1, 2, q 2 1)]) by (vm_compute; done). rewrite E2.
  assert (j = 0 \/ j = 1 \/ j = 2) as [->|[->| ->]] by lia; [exists 0, (q 1 1)|exists 0, (q 1 2)|exists 1, (q 2 1)]; set_solver.
Qed.
Lemma ex_positive : forall i j v, (i, j, v) ∈ coeffs (rm_mat exR) -> (0 < v)%Qc.
Proof.
  intros i j v. assert (E : rm_mat exR = exM) by (vm_compute; done). rewrite E.
  assert (E2 : coeffs exM = [(0, 0, q 1 1); (0, 1, q 1 2); (1, 1, q 1 2); (1, 2, q 2 1)]) by (vm_compute; done). rewrite E2.
  intros H. repeat (apply elem_of_cons in H as [[= -> -> ->]|H]; [by vm_compute|]). by apply elem_of_nil in H.
Qed.

(** A target with fewer entities than those that were prepared. *)
Lemma small_target_refuted : ~ forall r src trg dft, reachable_clean r -> valued src -> mesh_ok src -> mesh_ok trg -> fl_nature src = fl_nature trg -> fst (transfer r src trg dft) <> UB.
Proof.
  intros H. apply (H exR (exS IntensiveMaximum) (FL 0 IntensiveMaximum 1 2 [q 3 2] None) 0%Qc exR_ok (ex_valued _)); [repeat split; try done; lia|repeat split; try done; lia|done|by vm_compute].
Qed.
(** A removal of coefficients between two transfers. *)
Definition exN : remapper := snd (nullifiedTinyCoeffInCrudeMatrixAbs (fst (snd (transfer exR (exS IntensiveMaximum) (exT IntensiveMaximum) 0%Qc))) (q 3 4)).
Lemma after_removal_refuted : ~ forall r src trg dft r' trg' i c, reachable r -> ready r src trg -> valued src -> receives trg src -> defined (rm_mat r) src trg ->
  transfer r src trg dft = (Ok tt, (r', trg')) -> 0 <= i < fl_expected trg -> 0 <= c < default 0 (components src) -> row_reached (rm_mat r) i -> value trg' i c = Some (interpolated (rm_mat r) src trg i c).
Proof.
  intros H. set (n := IntensiveMaximum). 
  assert (HR : reachable exN).
  { exists [SetMatrix (FT 0 3) (FT 0 2) exM; Transfer (exS n) (exT n) 0%Qc; Nullify (q 3 4)]. split; [|vm_compute; done].
    constructor; [split; [apply exM_matrix|done]|]. repeat constructor. }
  assert (E1 : exists d dR, exN = RM (Some (FT 0 3)) (Some (FT 0 2)) [[(0, q 1 1)]; [(2, q 2 1)]] d dR /\ zlen dR = 3) by (eexists _, _; split; [vm_compute; done|done]).
  destruct E1 as (d & dR & E1 & LdR).
  assert (Hready : ready exN (exS n) (exT n)).
  { rewrite E1. unfold ready, agree, complete, mesh_ok, one_point_at_most. cbn [exS exT fl_nature fl_expected fl_dim fl_measure rm_src rm_trg rm_mat rm_denoR].
    split; [split; [done|]; by exists (FT 0 3), (FT 0 2)|]. split; [split; [done|exact LdR]|]. repeat (split; try done; try lia). }
  assert (Hd : defined (rm_mat exN) (exS n) (exT n)).
  { unfold defined. apply (nonzerob_ok _ (divisor (rm_mat exN) (exS n) (exT n))). vm_compute. done. }
  assert (E : exists r' trg', transfer exN (exS n) (exT n) 0%Qc = (Ok tt, (r', trg')) /\ option_map this (value trg' 1 0) = Some (16#5)%Q).
  { eexists _, _. split; [vm_compute; reflexivity|vm_compute; done]. }
  destruct E as (r' & trg' & E & Ev).
  specialize (H exN (exS n) (exT n) 0%Qc r' trg' 1 0 HR Hready (ex_valued n) (ex_receives n) Hd E).
  rewrite H in Ev; [vm_compute in Ev; done|done|done|]. rewrite E1. exists 2, (q 2 1). vm_compute. repeat constructor.
Qed.
(** A mesh of dimension -1 and the nature IntensiveConservation: [ready] without its last clause. Here the target is the point, of which the code takes DBL_MAX (here 1000) for measure. *)
Definition pS : field := FL 0 IntensiveConservation 2 2 [q 1 1; q 3 1] (Some (1, [Some (q 5 1); Some (q 5 1)])).
Definition pT : field := FL 0 IntensiveConservation 1 (-1) [q 1000 1] None.
Definition pR : remapper := snd (setCrudeMatrix (FT 0 2) (FT 0 1) [[(0, q 1 1); (1, q 3 1)]]).
Lemma point_refuted : ~ forall r src trg dft r' trg' i c, reachable_clean r -> agree r src trg -> complete r src trg -> fl_nature src <> NoNature -> mesh_ok src -> mesh_ok trg -> one_point_at_most src trg ->
  valued src -> receives trg src -> defined (rm_mat r) src trg ->
  transfer r src trg dft = (Ok tt, (r', trg')) -> 0 <= i < fl_expected trg -> 0 <= c < default 0 (components src) -> row_reached (rm_mat r) i -> value trg' i c = Some (interpolated (rm_mat r) src trg i c).
Proof.
  intros H.
  assert (HM : is_matrix [[(0, q 1 1); (1, q 3 1)]]) by (unfold is_matrix, is_map; repeat constructor; cbn; repeat constructor; lia).
  assert (HR : reachable_clean pR).
  { exists [SetMatrix (FT 0 2) (FT 0 1) [[(0, q 1 1); (1, q 3 1)]]]. split; [|done]. constructor; [|done]. split; [done|]. done. }
  assert (E1 : pR = RM (Some (FT 0 2)) (Some (FT 0 1)) [[(0, q 1 1); (1, q 3 1)]] [[]] [[]; []]) by (vm_compute; done).
  assert (Hd : defined (rm_mat pR) pS pT).
  { unfold defined. apply (nonzerob_ok _ (divisor (rm_mat pR) pS pT)). vm_compute. done. }
  assert (E : exists r' trg', transfer pR pS pT 0%Qc = (Ok tt, (r', trg')) /\ option_map this (value trg' 0 0) = Some (1#50)%Q).
  { eexists _, _. split; [vm_compute; reflexivity|vm_compute; done]. }
  destruct E as (r' & trg' & E & Ev).
  specialize (H pR pS pT 0%Qc r' trg' 0 0 HR).
  rewrite H in Ev; [vm_compute in Ev; done|..]; try done.
  - rewrite E1. split; [done|]. by exists (FT 0 2), (FT 0 1).
  - intros [Hx _]. done.
  - exists 1, [Some (q 5 1); Some (q 5 1)]. repeat split; try done. repeat constructor; done.
  - split; [intros nc l Hx; done|by left].
  - rewrite E1. exists 0, (q 1 1). vm_compute. repeat constructor.
Qed.
(** After a matrix that was refused, a transfer succeeds and leaves the new array without values. *)
Lemma refused_matrix_refuted : ~ forall r src trg dft r' trg' i c, reachable_clean r -> agree r src trg -> fl_nature src <> NoNature -> mesh_ok src -> mesh_ok trg -> valued src -> fl_dim src <> -1 -> fl_dim trg <> -1 ->
  transfer r src trg dft = (Ok tt, (r', trg')) -> 0 <= i < fl_expected trg -> 0 <= c < default 0 (components src) -> value trg' i c <> None.
Proof.
  intros H. set (n := IntensiveMaximum). set (r0 := snd (setCrudeMatrix (FT 0 3) (FT 0 2) [])).
  assert (E : exists r' trg', transfer r0 (exS n) (exT n) 0%Qc = (Ok tt, (r', trg')) /\ value trg' 0 0 = None).
  { eexists _, _. split; [vm_compute; reflexivity|vm_compute; done]. }
  destruct E as (r' & trg' & E & Ev).
  refine (H r0 (exS n) (exT n) 0%Qc r' trg' 0 0 _ _ _ _ _ (ex_valued n) _ _ E _ _ Ev); try done; try (cbn; lia).
  - exists [SetMatrix (FT 0 3) (FT 0 2) []]. split; [|done]. constructor; [|done]. split; [constructor|done].
  - split; [done|]. by exists (FT 0 3), (FT 0 2).
Qed.
(** A transfer that throws has nevertheless given an array, without values, to the target. *)
Lemma no_nature_refuted : ~ forall r src trg dft r' trg', reachable_clean r -> agree r src trg -> complete r src trg -> valued src -> mesh_ok src -> mesh_ok trg -> transfer r src trg dft = (Throw, (r', trg')) -> trg' = trg.
Proof.
  intros H. set (n := NoNature).
  assert (E : exists r' trg', transfer exR (exS n) (exT n) 0%Qc = (Throw, (r', trg')) /\ components trg' = Some 1).
  { eexists _, _. split; [vm_compute; reflexivity|vm_compute; done]. }
  destruct E as (r' & trg' & E & Ev).
  rewrite (H exR (exS n) (exT n) 0%Qc r' trg') in Ev; try done.
  - apply exR_ok.
  - split; [done|]. by exists (FT 0 3), (FT 0 2).
  - apply ex_valued.
Qed.
