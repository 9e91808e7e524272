(** Concrete distributed data. *)
From Coq Require Import ZifyBool ZifyNat.
From Verif Require Import Base SearchSpec SkyModel SkySpec SkyProofs7 DecModel ParModel ParSpec.

Definition exWorld : list (list Z * sky) := [([5; 0; 3], Sky [] [0; 1; 3; 3] [9; 8; 7]); ([3; 0; 1], Sky [] [0; 2; 3; 4] [4; 3; 8; 6]); ([], Sky [] [0] [])].
Definition exPacks : list (list (list Z)) := [[[9]; [8; 7]; []]; [[4; 3]; [8]; [6]]; []].
Lemma look3 {A} (a b c : A) p x : [a; b; c] @ p = Some x -> (p = 0 /\ x = a) \/ (p = 1 /\ x = b) \/ (p = 2 /\ x = c).
Proof.
  intros H. pose proof (zlook_Some_lt _ _ _ H) as Hp. change (zlen [a; b; c]) with 3 in Hp. assert (p = 0 \/ p = 1 \/ p = 2) as [->|[->| ->]] by lia; injection H as <-; auto.
Qed.
Lemma ex_packs : has_packs exWorld exPacks.
Proof.
  split; [done|]. intros p ids s ps Hw Hp. apply look3 in Hw as [[-> E]|[[-> E]|[-> E]]]; injection E as -> ->; injection Hp as <-; (split; [|done]).
  - apply (sky2_offs [[9]; [8; 7]; []]).
  - apply (sky2_offs [[4; 3]; [8]; [6]]).
  - apply (sky2_offs []).
Qed.
Lemma equi_some : has_packs exWorld exPacks /\ held exWorld 3 /\ equiRedistribute exWorld 7 = Ok [([0; 1], Sky [] [0; 2; 3] [7; 8; 6]); ([3], Sky [] [0; 2] [3; 4]); ([5], Sky [] [0; 1] [9])].
Proof. split; [exact ex_packs|]. split; [exists 0; do 2 eexists; split; [done|set_solver]|]. vm_compute. done. Qed.
Lemma complement_some : paraComplement [[5; 0; 3]; [3; 1]; []] 7 = Ok [2; 4; 6].
Proof. vm_compute. done. Qed.
Definition exField : list (list Z * list Z) := [([5; 0; 3], [50; 0; 30]); ([3; 1], [31; 10])].
Lemma field_some : (forall p ids f, exField @ p = Some (ids, f) -> zlen ids = zlen f) /\ redistributeCellField exField [[0; 3; 1]; [5; 3]] = Ok [[0; 10; 30]; [30; 50]].
Proof.
  split; [|vm_compute; done]. intros p ids f Hp. pose proof (zlook_Some_lt _ _ _ Hp) as B. change (zlen exField) with 2 in B. assert (p = 0 \/ p = 1) as [->| ->] by lia; injection Hp as <- <-; done.
Qed.
(** The ids outside of [0, nb) are lost. *)
Lemma outside_lost : equiRedistribute [([7; 2], Sky [] [0; 1; 2] [4; 5])] 7 = Ok [([2], Sky [] [0; 1] [5])].
Proof. vm_compute. done. Qed.
