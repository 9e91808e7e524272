From Verif Require Import Base ArrLib GlModel SerModel DtModel DtSpec DtProofs DtProofs2 DtProofs3 DtProofs4 DtProofs5.
From Coq Require Import QArith Qabs Lqa ZifyBool ZifyNat.
Local Open Scope Z_scope.

(** an instant at 1, a constant interval [2, 4], a linear interval [4, 6], tolerance 1/10 *)
Definition ex_fs : list tfield := [TF 5 1 1 (1#10); TF 7 2 4 (1#10); TF 6 4 6 (1#10)].
Definition ex_ms : list Z := [0; 0; 1].
Definition ex_as : list (list Z) := [[0]; [1]; [1; 2]].
Definition ex_sl : list slice := [Inst 0 0 0 1; CstTI 0 1 1 2 4; LinT 1 1 2 2 4 6].
Lemma ex_build : newDefTime (Some <$> ex_fs) ex_ms ex_as = Ok (DT (Some (1#10)%Q) ex_sl).
Proof. reflexivity. Qed.
Lemma idx3 {A} (a b c x : A) i : [a; b; c] @ i = Some x -> (i = 0 /\ x = a) \/ (i = 1 /\ x = b) \/ (i = 2 /\ x = c).
Proof.
  intros H. pose proof (zlook_Some_lt _ _ _ H) as B. unfold zlen in B; cbn in B. assert (i = 0 \/ i = 1 \/ i = 2) as [->|[->| ->]] by lia; injection H as <-; auto.
Qed.
Lemma ex_fine : forward ex_sl /\ ascending (1#10) ex_sl /\ apart (1#10) ex_sl /\ lasting (1#10) ex_sl.
Proof.
  split; [|split; [|split]].
  - intros i s H. apply idx3 in H as [[_ ->]|[[_ ->]|[_ ->]]]; cbn [startTime endTime]; lra.
  - intros i s s' H H'. apply idx3 in H as [[E ->]|[[E ->]|[E ->]]], H' as [[E' ->]|[[E' ->]|[E' ->]]]; try lia; cbn [startTime endTime]; split; lra.
  - intros i j s s' H H' Hij. apply idx3 in H as [[E ->]|[[E ->]|[E ->]]], H' as [[E' ->]|[[E' ->]|[E' ->]]]; try lia; cbn [startTime endTime]; lra.
  - intros i m a b f t0 t1 H. apply idx3 in H as [[_ E]|[[_ E]|[_ E]]]; [done..|]. injection E as _ _ _ _ -> ->. lra.
Qed.
