(** Meshes for the examples of C108. *)
From Coq Require Import QArith ZifyBool ZifyNat.
From Verif Require Import Base DataArray CellTable CellModel UmModel UmSpec UcProofs6 SlicesSpec SxExamples GxExamples RpModel RpSpec.
Local Open Scope Z_scope.

Lemma plate_two : NoDup [2; 0] /\ forall i, i ∈ [2; 0] -> 0 <= i < zlen plate.
Proof. split; [apply NoDup_cons; split; [rewrite elem_of_list_singleton; discriminate|apply NoDup_singleton]|]. intros i H. change (zlen plate) with 3. rewrite !elem_of_cons, elem_of_nil in H. lia. Qed.
Definition twoQuads : list cell := [(NORM_QUAD4, [4; 5; 6; 7]); (NORM_QUAD4, [0; 1; 2; 3])].
Lemma twice_spoilt : exists cells news ids, (stores (mk 2 8 cells) cells /\ stores (mk 2 8 news) news) /\ zlen ids = zlen news /\ (forall i, i ∈ ids -> 0 <= i < zlen cells) /\ setPartOfMySelf true (mk 2 8 cells) ids (mk 2 8 news) = UB.
Proof.
  exists plate, twoQuads, [0; 0]. split; [exact (conj (proj1 (mk_ok 2 8 plate ltac:(lia))) (proj1 (mk_ok 2 8 twoQuads ltac:(lia))))|]. split; [done|]. split; [|vm_compute; reflexivity].
  intros i H. change (zlen plate) with 3. rewrite !elem_of_cons, elem_of_nil in H. lia.
Qed.
Lemma back_range : valid_range 2 (-1) (-2) /\ is_range_list 2 (-1) (-2) [2; 0].
Proof.
  split; [unfold valid_range; lia|]. intros k v. unfold before. split.
  - intros H. pose proof (zlook_Some_lt _ _ _ H) as Hk. change (zlen [2; 0]) with 2 in Hk. assert (k = 0 \/ k = 1) as [-> | ->] by lia; injection H as <-; (split; [lia|]; split; [lia|]); lia.
  - intros (H0 & -> & H). assert (k = 0 \/ k = 1) as [-> | ->] by lia; reflexivity.
Qed.
