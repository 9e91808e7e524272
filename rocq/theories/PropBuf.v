(** C33, C34: the buffer of an array. *)
From Verif Require Import Base BufModel BufSpec BufProofs BufProofs2 BufProofs3.

(** C33.  Every session of calls on an array that manages its own memory (alloc, allocIfNecessary, reserve, reAlloc, pack, push, pop,
    insert, writeOnPlace without gap, fill, copy, desallocate, ownership given on a block) runs without undefined behaviour; the values
    returned, the exceptions, and the final content are those of the same session on the abstract sequence. *)
Theorem C33_sequence {A} (cs : list (cmd A)) : Forall no_external cs -> session_ok fresh cs ->
  exists s os, session step fresh cs = Ok (s, os) /\ session aop (0, None) cs = Ok (view s, os).
Proof. exact (C33_session_ok cs). Qed.
Print Assumptions C33_sequence.

(** C33, with registrations of the caller's blocks too: after any session, a call does to the content what it does to the abstract
    sequence; a registration makes the content the values of the block; the only additional exceptions are those of writes while the
    array has a read-only block. *)
Theorem C33_call {A} (cs : list (cmd A)) c s os : session_ok fresh (cs ++ [c]) -> session step fresh cs = Ok (s, os) ->
  match step s c with
  | Ok (s', v) =>
    match c with
    | UseExternal b _ n c' | UseRW b n c' =>
      v = None /\ exists blk, s_heap s @ b = Some blk /\ view s' = (c', Some (take (Z.to_nat (n * c')) (b_cells blk)))
    | _ => aop (view s) c = Ok (view s', v)
    end
  | Throw => match c with
    | UseExternal _ _ _ _ | UseRW _ _ _ => False
    | Push _ | Insert _ | Write _ _ _ | Fill _ | DeepCopy _ _ => aop (view s) c = Throw \/ read_only s
    | _ => aop (view s) c = Throw
    end
  | _ => False
  end.
Proof. exact (C33_step_ok cs c s os). Qed.
Print Assumptions C33_call.

Definition ex_session : list (cmd Z) :=
  [Push 3; Push 4; Push 5; Pop; Pack; Insert [7; 8; 9]; Write 1 10 [11]; Reserve 4; Alloc 2 3; Push 1; Fill 6; ReAlloc 1; DeepCopy 1 [1; 2]; Pop].
Example C33_ex_hyp : Forall no_external ex_session /\ session_ok fresh ex_session.
Proof.
  split; [repeat constructor|]. unfold ex_session. vm_compute.
  repeat match goal with |- _ /\ _ => split end; try exact I; try discriminate; try reflexivity. exists 2. split; [discriminate|reflexivity].
Qed.
Example C33_ex : exists s, session step fresh ex_session = Ok (s, [Returned None; Returned None; Returned None; Returned (Some (Some 5));
    Returned None; Returned None; Returned None; Returned None; Returned None; Threw; Returned None; Returned None; Returned None; Returned (Some (Some 2))])
  /\ view s = (1, Some [Some 1]).
Proof. eexists. split; vm_compute; reflexivity. Qed.

(** C33, writeOnPlace beyond the end: the growth decision only looks at the current size, so that a gap makes the write fall out of
    the block. *)
Theorem C33_writeOnPlace_refuted : exists (s : st Z) os, session step fresh [Alloc 0 1] = Ok (s, os) /\ step s (Write 5 7 []) = UB.
Proof. eexists _, _. split; vm_compute; reflexivity. Qed.
Print Assumptions C33_writeOnPlace_refuted.

(** C34.  After any session (registrations with and without ownership, read only or read/write, included): nothing was undefined (no
    block used after its release, none released twice or the wrong way); the blocks of the caller were never released; those of the
    array were released exactly once, except the one in use. *)
Theorem C34_released_once {A} (cs : list (cmd A)) : session_ok fresh cs ->
  exists s os, session step fresh cs = Ok (s, os) /\ forall b blk, s_heap s @ b = Some blk -> b_freed blk = releases s b blk.
Proof. exact (C34_session_ok cs). Qed.
Print Assumptions C34_released_once.

(** C34.  Once the array is destroyed, every block of the array was released once and no block of the caller was. *)
Theorem C34_no_leak {A} (cs : list (cmd A)) : session_ok fresh (cs ++ [Desallocate]) ->
  exists s os, session step fresh (cs ++ [Desallocate]) = Ok (s, os) /\
    forall b blk, s_heap s @ b = Some blk -> b_freed blk = if b_array blk then 1 else 0.
Proof. exact (C34_destroyed_ok cs). Qed.
Print Assumptions C34_no_leak.

(** C34.  A block of the caller that is never registered for writing is never modified, whatever is done with the array, registered
    read-only or not. *)
Theorem C34_read_only {A} (cs1 cs2 : list (cmd A)) s1 s2 o1 o2 b blk : session_ok fresh (cs1 ++ cs2) ->
  session step fresh cs1 = Ok (s1, o1) -> session step fresh (cs1 ++ cs2) = Ok (s2, o2) ->
  s_heap s1 @ b = Some blk -> b_array blk = false -> Forall (not_rw b) (cs1 ++ cs2) -> s_heap s2 @ b = Some blk.
Proof. exact (C34_client_ok cs1 cs2 s1 s2 o1 o2 b blk). Qed.
Print Assumptions C34_read_only.

Definition ex_own : list (cmd Z) :=
  [NewClient CPP [Some 1; Some 2; Some 3]; UseExternal 0 CPP 3 1; Fill 9; Pop; Push 4; Insert [6]; Reserve 10; Push 5; UseOwned CPP [Some 7; Some 8] 2 1; Push 9; UseRW 0 3 1; Fill 4; Push 1].
Example C34_ex_hyp : session_ok fresh (ex_own ++ [Desallocate]).
Proof.
  unfold ex_own. vm_compute.
  repeat match goal with |- _ /\ _ => split end; try exact I; try discriminate; try reflexivity;
    eexists; (split; [reflexivity|split; [reflexivity|discriminate]]).
Qed.
(** Pop on a read-only registration leaves room: the push that follows is refused until reserve has made a copy. *)
Example C34_ex : exists s os, session step fresh (ex_own ++ [Desallocate]) = Ok (s, os) /\
  b_freed <$> s_heap s = [0; 1; 1; 1; 1] /\ s_heap s @ 0 = Some (Blk CPP [Some 4; Some 4; Some 4] 0 false) /\
  take 6 os = [Returned None; Returned None; Threw; Returned (Some (Some 3)); Threw; Threw].
Proof. eexists _, _. split; [vm_compute; reflexivity|]. repeat split; vm_compute; reflexivity. Qed.
