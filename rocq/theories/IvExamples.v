(** Matrices for the examples of C102. *)
From Coq Require Import QArith Qcanon ZifyBool.
From Verif Require Import Base ArrLib RemapSpec IvModel IvSpec IvProofs6.
Local Open Scope Z_scope.

Definition mat_of (c : Z) (l : list Qc) : Z -> Z -> Qc := fun i j => default 0%Qc (l @ (i * c + j)).
Lemma mat_of_ok r c l : 0 <= r -> 0 <= c -> zlen l = r * c -> by_rows r c l (mat_of c l).
Proof. intros Hr Hc HL. split; [done|]. intros i j Hi Hj. unfold mat_of. destruct (zlook_lt l (i * c + j)) as [x Hx]; [nia|]. by rewrite Hx. Qed.
Definition q (l : list Z) : list Qc := (fun x => Q2Qc (x # 2)) <$> l.
Definition prodb (r n c : Z) (A B C : Z -> Z -> Qc) : bool := forallb (fun i => forallb (fun j => Qc_eq_bool (C i j) (sumZ n (fun k => A i k * B k j)%Qc)) (seqZ 0 c)) (seqZ 0 r).
Lemma prodb_ok r n c A B C : prodb r n c A B C = true -> is_product r n c A B C.
Proof.
  intros H i j Hi Hj. unfold prodb in H. rewrite forallb_forall in H. specialize (H i ltac:(apply elem_of_list_In, elem_of_seqZ; lia)). rewrite forallb_forall in H. specialize (H j ltac:(apply elem_of_list_In, elem_of_seqZ; lia)). by apply Qc_eq_bool_correct.
Qed.
Definition m3 : list Qc := q [0; 2; 4;  2; 0; 6;  8; -6; 16].
Definition i3 : list Qc := q [-9; 14; -3;  -4; 8; -2;  3; -4; 1].
Lemma m3_ok : by_rows 3 3 m3 (mat_of 3 m3) /\ by_rows 3 3 i3 (mat_of 3 i3) /\ inverse 3 (mat_of 3 m3) (mat_of 3 i3).
Proof. split; [by apply mat_of_ok|]. split; [by apply mat_of_ok|]. split; apply prodb_ok; vm_compute; done. Qed.
(** The second row is twice the first one. *)
Definition s2 : list Qc := q [2; 4;  4; 8].
Lemma s2_ok : by_rows 2 2 s2 (mat_of 2 s2) /\ ~ exists MB, inverse 2 (mat_of 2 s2) MB.
Proof.
  split; [by apply mat_of_ok|]. intros (MB & H & _). pose proof (H 0 0 ltac:(lia) ltac:(lia)) as H0. pose proof (H 1 0 ltac:(lia) ltac:(lia)) as H1.
  assert (E : sumZ 2 (fun k => mat_of 2 s2 1 k * MB k 0%Z)%Qc = (Q2Qc 2 * sumZ 2 (fun k => mat_of 2 s2 0 k * MB k 0%Z))%Qc).
  { unfold sumZ. change (seqZ 0 2) with [0; 1]. cbn [map]. unfold sumQ. cbn [foldr].
    assert (mat_of 2 s2 1 0 = Q2Qc 2) as -> by (apply Qc_eq_bool_correct; vm_compute; done). assert (mat_of 2 s2 1 1 = Q2Qc 4) as -> by (apply Qc_eq_bool_correct; vm_compute; done).
    assert (mat_of 2 s2 0 0 = 1%Qc) as -> by (apply Qc_eq_bool_correct; vm_compute; done). assert (mat_of 2 s2 0 1 = Q2Qc 2) as -> by (apply Qc_eq_bool_correct; vm_compute; done).
    replace (Q2Qc 4) with (Q2Qc 2 * Q2Qc 2)%Qc by (apply Qc_eq_bool_correct; vm_compute; done). ring. }
  rewrite <- H0, <- H1 in E. vm_compute in E. discriminate E.
Qed.
Definition eq_list (l l' : list Qc) : bool := (zlen l =? zlen l') && forallb (fun '(x, y) => Qc_eq_bool x y) (combine l l').
Definition m23 : list Qc := q [2; 4; 6;  8; 10; 12].
Definition m32 : list Qc := q [2; 0;  0; 2;  2; -2].
