(** Sharing and exchange on three processes. *)
From stdpp Require Import sorting.
From Verif Require Import Base OverModel OverSpec OverProofs OverProofs2 OverProofs3.

Definition all3 : Z -> Z -> bool := fun i j => negb ((i =? 2) && (j =? 0)).
Definition todo3 : list (list couple) := match todoLists 1 3 all3 with Ok t => t | _ => [] end.
Lemma todo3_ok : todoLists 0 3 all3 = Ok [[(0, 0)]; [(0, 1); (1, 0); (1, 1)]; [(0, 2); (1, 2); (2, 1); (2, 2)]] /\
  todoLists 1 3 all3 = Ok [[(0, 0); (0, 1); (1, 0)]; [(1, 1); (1, 2)]; [(0, 2); (2, 1); (2, 2)]] /\
  todoLists 2 3 all3 = Ok [[(0, 0); (0, 1)]; [(1, 0); (1, 1); (1, 2)]; [(0, 2); (2, 1); (2, 2)]].
Proof. vm_compute. done. Qed.
Lemma todo3_shared : shared 3 all3 todo3.
Proof. destruct (todo_ok 1 3 all3) as (t & E & H); [lia..|done|]. unfold todo3. by rewrite E. Qed.
(** Nothing is blocked at the beginning; process 2 needs the source mesh of 0, and gets it. *)
Lemma run3 : exists s, steps 1 (start 3 (fun p => exchangeMeshes 3 p todo3)) s /\ got s 2 = [((0, true, 0), (true, 0))].
Proof.
  eexists. split.
  - eapply StepsS; [constructor|]. apply Move. eapply (Meet _ _ _ 0 2 true true 0); [done|vm_compute; reflexivity|vm_compute; reflexivity|]. by intros m ?%elem_of_nil.
  - vm_compute. reflexivity.
Qed.
(** Two processes that both begin by sending may block: the order of the exchange matters. *)
Lemma both_send_blocks : let s := start 2 (fun p => [Snd (1 - p) true 0; Rcv (1 - p) true 0]) in ~ finished s /\ forall s', ~ move s s'.
Proof.
  cbn zeta. split.
  - intros [H _]. specialize (H 0). done.
  - intros s' Hm. inversion Hm as [pg w g p q b k rest pre b' post Hp|pg w g p q b b' k rest rest' Hpq Hp Hq]; subst.
    + cbn in Hp. destruct ((0 <=? p) && (p <? 2)); done.
    + cbn in Hq. destruct ((0 <=? q) && (q <? 2)); done.
Qed.
