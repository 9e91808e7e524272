(** C35: reference counting and the smart pointer. *)
From Verif Require Import Base IndexSpec RefModel RefSpec RefProofs5.

(** After any program on any number of objects, variables and members: no object is used after it was deleted (the run is defined); an
    object that still has owners is alive and its counter is the number of its owners; an object without owners was deleted exactly once.
    (Every prefix of a program is a program, so that this holds at all times.) *)
Theorem C35_lifetime cs : program_ok rstart cs -> exists s, foldM rstep cs rstart = Ok s /\
  forall p ob, r_objs s @ p = Some ob ->
    (o_dead ob = 0 /\ 1 <= owners s p /\ o_cnt ob = owners s p) \/ (o_dead ob = 1 /\ owners s p = 0).
Proof. exact (ref_lifetime cs). Qed.
Print Assumptions C35_lifetime.

(** Each command sets the pointers it says and no other, and everything reachable afterwards is alive. *)
Theorem C35_pointers cs c s : program_ok rstart (cs ++ [c]) -> foldM rstep cs rstart = Ok s -> exists s', rstep s c = Ok s' /\
  pointers_after s c s' /\ forall p, reachable s' p -> exists ob, r_objs s' @ p = Some ob /\ o_dead ob = 0.
Proof. exact (ref_pointers cs c s). Qed.
Print Assumptions C35_pointers.

(** Two objects, the first with a member; [v0], [v1] take them over; [v0->member = v1]; [v1] disappears; [v2] copies the member; the
    first object is returned, [v0] disappears, and the reference returned is given back: the first object is deleted, the second lives
    through [v2] only. *)
Definition C35_prog : list rcmd :=
  [RNew 1; RNew 0; RCtor (Some 0); RCtor (Some 1); RAssign (Slot 0 0) (Var 1); RAssign (Var 0) (Var 0); RDestroy 1; RCopy (Slot 0 0); RRetn (Var 0);
   RDestroy 0; RTakeRef (Slot 0 0) (Some 1); RDecr 0].
Ltac next H := split; [| let s := fresh "s" in intros s H; vm_compute in H; injection H as <-].
Example C35_ex_hyp : program_ok rstart C35_prog.
Proof.
  next H; [done|]. next H; [done|].
  next H; [intros q [= <-]; vm_compute; right; left|]. next H; [intros q [= <-]; left|].
  next H.
  { split; simpl; [|done]. split; [apply reach_var; left|]. eexists. split; [reflexivity|]. done. }
  next H; [done|]. next H; [done|].
  next H.
  { split; [apply reach_var; left|]. eexists. split; [reflexivity|]. done. }
  next H; [done|]. next H; [done|].
  next H.
  { split; [split; [apply reach_tok; left|]; eexists; split; [reflexivity|]; done|]. intros q [= <-]. left. reflexivity. }
  next H; [left|]. done.
Qed.
Example C35_ex : exists s a b, foldM rstep C35_prog rstart = Ok s /\ r_objs s = [a; b] /\ o_dead a = 1 /\ o_dead b = 0 /\ o_cnt b = 1.
Proof. eexists _, _, _. split; [vm_compute; reflexivity|]. split; [reflexivity|]. done. Qed.

(** Any number of threads, any schedule of their steps: the object is not used after its deletion, it is deleted at most once, not
    before the last reference is gone, and it has been deleted once the last reference is gone and the calls of decrRef have returned. *)
Theorem C35_threads n l : schedule_ok (cstart n) l -> exists s, foldM cstep l (cstart n) = Ok s /\
  c_cnt s = refs s /\ (1 <= refs s -> c_dead s = 0) /\ (refs s = 0 -> deleting s = 0 -> c_dead s = 1) /\ 0 <= c_dead s <= 1.
Proof. exact (ref_threads n l). Qed.
Print Assumptions C35_threads.

(** Two threads, their calls of decrRef interleaved. *)
Example C35_threads_ex : schedule_ok (cstart 1) [(0, CIncr); (0, CGive 1); (1, CUse); (1, CDecr); (0, CDecr); (1, CTest); (0, CTest)].
Proof.
  next H; [eexists; split; [reflexivity|]; simpl; lia|]. next H; [eexists; split; [reflexivity|]; simpl; repeat split; lia|].
  next H; [eexists; split; [reflexivity|]; simpl; lia|]. next H; [eexists; split; [reflexivity|]; simpl; lia|].
  next H; [eexists; split; [reflexivity|]; simpl; lia|]. next H; [eexists; split; [reflexivity|]; done|].
  next H; [eexists; split; [reflexivity|]; done|]. done.
Qed.

(** The condition on [x = p]: when [p] is the pointer [x] already holds, the reference handed over is not released.  After
    [x = x.retn()] and the destruction of [x], the object has no owner and was not deleted. *)
Theorem C35_assign_same_pointer_refuted : exists s ob,
  foldM rstep [RNew 0; RCtor (Some 0); RRetn (Var 0); RAssignPtr (Var 0) (Some 0); RDestroy 0] rstart = Ok s /\
  r_objs s @ 0 = Some ob /\ owners s 0 = 0 /\ o_dead ob = 0.
Proof. eexists _, _. split; [vm_compute; reflexivity|]. split; [reflexivity|]. done. Qed.
Print Assumptions C35_assign_same_pointer_refuted.

(** The condition on [x = y]: the assignment reads [y] again after it has released what [x] held.  [node = node->next], where [node] is
    the only owner of the first node of a chain, reads a deleted object. *)
Theorem C35_assign_from_member_refuted : exists s,
  foldM rstep [RNew 1; RNew 0; RCtor (Some 0); RAssignPtr (Slot 0 0) (Some 1)] rstart = Ok s /\
  reachable s 1 /\ owners s 0 = 1 /\ rstep s (RAssign (Var 0) (Slot 0 0)) = UB.
Proof.
  eexists. split; [vm_compute; reflexivity|]. split; [|done].
  eapply reach_slot; [apply reach_var; left|reflexivity|left].
Qed.
Print Assumptions C35_assign_from_member_refuted.
