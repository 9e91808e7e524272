(** C89: work is shared between the processes so that each interacting pair is treated once.  C90: the exchange of meshes cannot block. *)
From stdpp Require Import sorting.
From Verif Require Import Base OverModel OverSpec OverProofs OverProofs2 OverProofs3 OverExamples.

(** ** C89 *)
Theorem C89_each_pair_once algo n inter : 0 <= algo <= 2 -> 0 <= n -> 2 * n < 2147483647 -> exists todo, todoLists algo n inter = Ok todo /\ shared n inter todo.
Proof. exact (todo_ok algo n inter). Qed.
Print Assumptions C89_each_pair_once.
Example C89_each_pair_once_case : 0 <= 1 <= 2 /\ 0 <= 3 /\ 2 * 3 < 2147483647 /\ todoLists 1 3 all3 = Ok [[(0, 0); (0, 1); (1, 0)]; [(1, 1); (1, 2)]; [(0, 2); (2, 1); (2, 2)]].
Proof. split; [lia|]. split; [lia|]. split; [done|]. exact (proj1 (proj2 todo3_ok)). Qed.

Theorem C89_algorithm_refused algo n inter : ~ 0 <= algo <= 2 -> todoLists algo n inter = Throw.
Proof. exact (todo_throw algo n inter). Qed.
Print Assumptions C89_algorithm_refused.
Example C89_algorithm_refused_case : todoLists 3 3 all3 = Throw.
Proof. reflexivity. Qed.

(** The field of a process is sent once for each target it interacts with. *)
Theorem C89_fields_to_send n inter todo me : 0 <= n -> shared n inter todo ->
  NoDup (procsToSendField n me todo) /\ forall j, j ∈ procsToSendField n me todo <-> interact n inter (me, j).
Proof. exact (fun Hn Hs => conj (field_nodup n Hn inter todo Hs me) (field_elem n Hn inter todo Hs me)). Qed.
Print Assumptions C89_fields_to_send.
Example C89_fields_to_send_case : shared 3 all3 todo3 /\ procsToSendField 3 1 todo3 = [0; 1; 2] /\ procsToSendField 3 2 todo3 = [1; 2].
Proof. split; [exact todo3_shared|]. vm_compute. done. Qed.

(** ** C90 *)
(** Whatever the schedule and whether MPI stores messages or not, the exchange is over or can go on without storing anything. *)
Theorem C90_no_deadlock n inter todo m s : 0 <= n -> shared n inter todo -> steps m (start n (fun p => exchangeMeshes n p todo)) s -> finished s \/ exists s', move s s'.
Proof. exact (fun Hn Hs H => proj1 (proj2 (exchange_ok n Hn inter todo Hs m s H))). Qed.
Print Assumptions C90_no_deadlock.
Example C90_no_deadlock_case : shared 3 all3 todo3 /\ (exists s, steps 1 (start 3 (fun p => exchangeMeshes 3 p todo3)) s) /\
  (let s := start 2 (fun p => [Snd (1 - p) true 0; Rcv (1 - p) true 0]) in ~ finished s /\ forall s', ~ move s s').
Proof. split; [exact todo3_shared|]. split; [destruct run3 as (s & H & _); by exists s|exact both_send_blocks]. Qed.

(** It ends: no schedule has more steps than there are sends and receives. *)
Theorem C90_ends n inter todo m s : 0 <= n -> shared n inter todo -> steps m (start n (fun p => exchangeMeshes n p todo)) s ->
  (m <= sum_list ((fun p => length (exchangeMeshes n p todo)) <$> seqZ 0 n))%nat.
Proof. exact (fun Hn Hs H => proj1 (exchange_ok n Hn inter todo Hs m s H)). Qed.
Print Assumptions C90_ends.
Example C90_ends_case : sum_list ((fun p => length (exchangeMeshes 3 p todo3)) <$> seqZ 0 3) = 50%nat.
Proof. reflexivity. Qed.

(** What a receive gets is the part it expects of the mesh it expects. *)
Theorem C90_received_as_expected n inter todo m s p q b k b' k' : 0 <= n -> shared n inter todo -> steps m (start n (fun p => exchangeMeshes n p todo)) s ->
  ((q, b, k), (b', k')) ∈ got s p -> b' = b /\ k' = k.
Proof.
  exact (fun Hn Hs H Hg => let E := proj1 (proj2 (proj2 (exchange_ok n Hn inter todo Hs m s H))) p _ Hg in conj (f_equal fst E) (f_equal snd E)).
Qed.
Print Assumptions C90_received_as_expected.
Example C90_received_as_expected_case : exists s, steps 1 (start 3 (fun p => exchangeMeshes 3 p todo3)) s /\ got s 2 = [((0, true, 0), (true, 0))].
Proof. exact run3. Qed.

(** At the end every process has, once, the five parts of every mesh it needs, and nothing else. *)
Theorem C90_received n inter todo m s : 0 <= n -> shared n inter todo -> steps m (start n (fun p => exchangeMeshes n p todo)) s -> finished s ->
  forall p, 0 <= p < n -> NoDup (got s p).*1 /\ forall q b k, (q, b, k) ∈ (got s p).*1 <-> needs todo p q b /\ 0 <= k < 5.
Proof. exact (fun Hn Hs H => proj2 (proj2 (proj2 (exchange_ok n Hn inter todo Hs m s H)))). Qed.
Print Assumptions C90_received.
Example C90_received_case : needs todo3 2 0 true /\ needs todo3 2 1 false /\ ~ needs todo3 2 1 true.
Proof.
  split; [split; [done|]; eexists; split; [vm_compute; reflexivity|left]|]. split; [split; [done|]; eexists; split; [vm_compute; reflexivity|right; left]|].
  intros (_ & l & E & H). vm_compute in E. injection E as <-. repeat (apply elem_of_cons in H as [?|H]; [done|]). by apply elem_of_nil in H.
Qed.
