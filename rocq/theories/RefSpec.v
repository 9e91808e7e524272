(** Owners of an object. *)
From Verif Require Import Base IndexSpec RefModel.

(** Occurrences of the object [p] among pointers. *)
Definition holds (p : Z) (l : list (option Z)) : Z := zlen (filter (fun x => x = Some p) l).
(** The owners of [p]: the references held through raw pointers, the MCAuto variables and the MCAuto members of living objects. *)
Definition owners (s : rstate) (p : Z) : Z :=
  holds p (Some <$> r_toks s) + holds p (r_vars s) +
  zsum ((fun o => if o_dead o =? 0 then holds p (o_slots o) else 0) <$> r_objs s).

(** [p] is reachable from the program. *)
Inductive reachable (s : rstate) : Z -> Prop :=
| reach_tok p : p ∈ r_toks s -> reachable s p
| reach_var p : Some p ∈ r_vars s -> reachable s p
| reach_slot o ob p : reachable s o -> r_objs s @ o = Some ob -> Some p ∈ o_slots ob -> reachable s p.
(** The state where the pointer of [x] is [p]; where it is null. *)
Definition put (s : rstate) (x : loc) (p : option Z) : rstate :=
  match x with
  | Var v => RSt (r_objs s) (zset (r_vars s) v p) (r_toks s)
  | Slot o j => match r_objs s @ o with
    | Some ob => setObj s o (Obj (o_cnt ob) (o_dead ob) (zset (o_slots ob) j p))
    | None => s end
  end.
Definition without (s : rstate) (x : loc) : rstate := put s x None.
(** [y] is a variable, or a member of an object reachable in [s]. *)
Definition loc_in (s : rstate) (y : loc) : Prop :=
  match y with
  | Var v => 0 <= v < zlen (r_vars s)
  | Slot o j => reachable s o /\ exists ob, r_objs s @ o = Some ob /\ 0 <= j < zlen (o_slots ob)
  end.

(** What the program may do: give back only references it holds; use members of reachable objects.  When a pointer [x] is
    overwritten, the objects that contain [x] and the source must be reachable otherwise than through [x].  The last condition of
    RAssignPtr: the object given is not the one already held. *)
Definition rcmd_ok (s : rstate) (c : rcmd) : Prop :=
  match c with
  | RNew n => 0 <= n
  | RCtor p => forall q, p = Some q -> q ∈ r_toks s
  | RCopy x | RRetn x => loc_in s x
  | RDestroy v => 0 <= v < zlen (r_vars s)
  | RNullify x => loc_in (without s x) x
  | RAssign x y => loc_in (without s x) x /\ loc_in (without s x) y
  | RAssignPtr x p => loc_in (without s x) x /\ (forall q, p = Some q -> q ∈ r_toks s /\ readLoc s x <> Ok p)
  | RTakeRef x p => loc_in (without s x) x /\ (forall q, p = Some q -> readLoc s x = Ok p \/ reachable (without s x) q)
  | RIncr p => reachable s p
  | RDecr p => p ∈ r_toks s
  end.
Fixpoint program_ok (s : rstate) (cs : list rcmd) : Prop :=
  match cs with [] => True | c :: cs => rcmd_ok s c /\ forall s', rstep s c = Ok s' -> program_ok s' cs end.

(** The same pointers everywhere (counters put aside). *)
Definition same_pointers (s s' : rstate) : Prop :=
  r_vars s' = r_vars s /\ r_toks s' ≡ₚ r_toks s /\ o_slots <$> r_objs s' = o_slots <$> r_objs s.
Definition withTok (s : rstate) (p : option Z) : rstate := match p with Some p => addTok s p | None => s end.
(** What a command does to the pointers. *)
Definition pointers_after (s : rstate) (c : rcmd) (s' : rstate) : Prop :=
  match c with
  | RNew n => same_pointers (RSt (r_objs s ++ [Obj 0 0 (replicate (Z.to_nat n) None)]) (r_vars s) (zlen (r_objs s) :: r_toks s)) s'
  | RCtor p => same_pointers (newVar s p) (withTok s' p)
  | RCopy x => forall p, readLoc s x = Ok p -> same_pointers (newVar s p) s'
  | RDestroy v => same_pointers (put s (Var v) None) s'
  | RNullify x => same_pointers (put s x None) s'
  | RAssign x y => forall p, readLoc s y = Ok p -> same_pointers (put s x p) s'
  | RAssignPtr x p => same_pointers (put s x p) (withTok s' p)
  | RTakeRef x p => same_pointers (put s x p) s'
  | RRetn x => forall p, readLoc s x = Ok p -> same_pointers (withTok s p) s'
  | RIncr p => same_pointers (addTok s p) s'
  | RDecr p => same_pointers s (addTok s' p)
  end.

(** A thread uses the object only while it holds a reference, and ends decrRef before it does anything else. *)
Definition cact_ok (s : cstate) (ta : Z * cact) : Prop :=
  exists th, c_thr s @ ta.1 = Some th /\
  match ta.2 with
  | CTest => True
  | CGive u => 1 <= t_refs th /\ t_ret th = false /\ 0 <= u < zlen (c_thr s)
  | _ => 1 <= t_refs th /\ t_ret th = false
  end.
(** Any schedule of such actions. *)
Fixpoint schedule_ok (s : cstate) (l : list (Z * cact)) : Prop :=
  match l with [] => True | ta :: l => cact_ok s ta /\ forall s', cstep s ta = Ok s' -> schedule_ok s' l end.
(** The references held by all the threads; the threads that have yet to delete the object. *)
Definition refs (s : cstate) : Z := zsum (t_refs <$> c_thr s).
Definition deleting (s : cstate) : Z := zlen (filter (fun t => t_ret t = true) (c_thr s)).
