From Verif Require Import Base DataArray SlicesSpec SearchSpec SlicesModel PartDefModel PartDefSpec PartDefProofs.

(** * C39: part definitions. *)
Theorem C39_toDAI : forall p l, denotes p l -> toDAI p = Ok (vec l).
Proof. exact toDAI_ok. Qed.
Print Assumptions C39_toDAI.
Theorem C39_toDAI_throws : forall b e s, toDAI (PSlice b e s) = Throw <-> ~ valid_range b e s.
Proof. exact toDAI_throw. Qed.
Print Assumptions C39_toDAI_throws.
Theorem C39_count : forall p l, denotes p l -> ~ goes_down p -> getNumberOfElems p = Ok (zlen l).
Proof. exact count_ok. Qed.
Print Assumptions C39_count.
Theorem C39_deepCopy : forall p l, denotes p l -> deepCopy p = Ok p.
Proof. exact deepCopy_ok. Qed.
Print Assumptions C39_deepCopy.
Theorem C39_isEqual : forall p q, isEqual p q = true <-> p = q.
Proof. exact isEqual_ok. Qed.
Print Assumptions C39_isEqual.
(** The simplified part denotes the same ids, and it is a slice whenever a slice can denote them. *)
Theorem C39_simplify : forall p l, denotes p l ->
  exists q, tryToSimplify p = Ok q /\ denotes q l /\ (is_slice q <-> exists b e s, denotes (PSlice b e s) l).
Proof. exact simplify_ok. Qed.
Print Assumptions C39_simplify.
Theorem C39_serialize : forall p l, denotes p l -> (let '(t, b) := serialize p [] [] in Unserialize t b) = Ok (p, [], []).
Proof. exact serial_ok. Qed.
Print Assumptions C39_serialize.
(** The big arrays are a stack: those that were there before are left. *)
Theorem C39_serialize_list : forall d bigs, da_alloc d = true -> da_nc d = 1 ->
  (let '(t, b) := serialize (PList d) [] bigs in Unserialize t b) = Ok (PList d, [], bigs).
Proof. exact serial_list_stack. Qed.
Print Assumptions C39_serialize_list.
Theorem C39_add : forall p q l m, denotes p l -> denotes q m -> ~ same_negative_step p q ->
  exists r n, add p q = Ok r /\ denotes r n /\ n ≡ₚ l ++ m /\ nondecreasing n.
Proof. exact add_ok. Qed.
Print Assumptions C39_add.
Theorem C39_compose : forall p q l m, denotes p l -> denotes q m -> (forall v, v ∈ l -> 0 <= v < zlen m) ->
  exists r n, composeWith p q = Ok r /\ denotes r n /\ composed l m n.
Proof. exact compose_ok. Qed.
Print Assumptions C39_compose.
Theorem C39_compose_throws : forall l q m, denotes q m -> ~ step_one q -> (exists v, v ∈ l /\ ~ 0 <= v < zlen m) -> composeWith (PList (vec l)) q = Throw.
Proof. exact compose_throw. Qed.
Print Assumptions C39_compose_throws.
Example C39_ex : denotes (PSlice 4 14 3) [4; 7; 10; 13] /\ denotes (PList (vec [3; 0])) [3; 0] /\ composed [3; 0] [4; 7; 10; 13] [13; 4] /\
  composeWith (PList (vec [3; 0])) (PSlice 4 14 3) = Ok (PList (vec [13; 4])) /\ add (PSlice 0 4 2) (PSlice 4 9 2) = Ok (PSlice 0 9 2) /\
  add (PSlice 0 5 2) (PSlice 3 1 (-1)) = Ok (PList (vec [0; 2; 2; 3; 4])) /\ tryToSimplify (PList (vec [9; 6; 3])) = Ok (PSlice 9 2 (-3)).
Proof.
  split; [split; [unfold valid_range; lia|]|].
  - intros k v. unfold before. destruct (decide (0 <= k < 4)) as [Hk|Hk].
    + assert (k = 0 \/ k = 1 \/ k = 2 \/ k = 3) as [->|[->|[->| ->]]] by lia; simpl; (split; [intros H; injection H as <-|intros (_ & -> & _); f_equal]; lia).
    + split; [|lia]. intros H. apply zlook_Some_lt in H. change (zlen [4; 7; 10; 13]) with 4 in H. lia.
  - split; [done|]. split; [repeat constructor|]. vm_compute. done.
Qed.

(** A decreasing slice: its ids can be listed but not counted, and two of them with the same step cannot be added. *)
Theorem C39_count_down_refuted : forall p, goes_down p -> getNumberOfElems p = Throw.
Proof. exact count_down. Qed.
Print Assumptions C39_count_down_refuted.
Theorem C39_add_down_refuted : forall p q l, denotes p l -> goes_down p -> same_negative_step p q -> add p q = Throw.
Proof. exact add_down. Qed.
Print Assumptions C39_add_down_refuted.
(** Simplification can therefore make a part whose elements cannot be counted any more. *)
Theorem C39_simplify_count_refuted : exists p q, getNumberOfElems p = Ok 3 /\ tryToSimplify p = Ok q /\ getNumberOfElems q = Throw.
Proof. exists (PList (vec [3; 2; 1])), (PSlice 3 0 (-1)). vm_compute. done. Qed.
Print Assumptions C39_simplify_count_refuted.
(** Ids outside the other part: not rejected when the latter is a slice with step 1; read out of bounds when the first one is a slice. *)
Theorem C39_compose_list_refuted : exists q m, denotes q m /\ zlen m = 3 /\ composeWith (PList (vec [5])) q = Ok (PList (vec [6])).
Proof.
  exists (PSlice 1 4 1), [1; 2; 3]. split; [|vm_compute; done]. split; [unfold valid_range; lia|]. intros k v. unfold before. destruct (decide (0 <= k < 3)) as [Hk|Hk].
  - assert (k = 0 \/ k = 1 \/ k = 2) as [->|[->| ->]] by lia; simpl; (split; [intros H; injection H as <-|intros (_ & -> & _); f_equal]; lia).
  - split; [|lia]. intros H. apply zlook_Some_lt in H. change (zlen [1; 2; 3]) with 3 in H. lia.
Qed.
Print Assumptions C39_compose_list_refuted.
Theorem C39_compose_slice_refuted : composeWith (PSlice 1 4 1) (PList (vec [7; 8])) = UB.
Proof. vm_compute. done. Qed.
Print Assumptions C39_compose_slice_refuted.
(** Two slices put in the same vectors cannot be read again. *)
Theorem C39_two_slices_refuted : forall b e s b' e' s', (let '(t, g) := serialize (PSlice b e s) [] [] in let '(t, g) := serialize (PSlice b' e' s') t g in Unserialize t g) = Throw.
Proof. done. Qed.
Print Assumptions C39_two_slices_refuted.
