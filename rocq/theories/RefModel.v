(** Reference counting (RefCountObjectOnly) and its smart pointer (MCAuto). *)
From Verif Require Import Base.

(** A reference counted object: its counter (MEDCouplingRefCountObject.hxx 115), how many times it was deleted, and its members of
    type MCAuto. *)
Record obj := Obj { o_cnt : Z; o_dead : Z; o_slots : list (option Z) }.
(** The memory: the objects (an address is a position), the MCAuto variables of the program, and the references the program holds
    through raw pointers (those it must give back with decrRef, or hand over to an MCAuto). *)
Record rstate := RSt { r_objs : list obj; r_vars : list (option Z); r_toks : list Z }.
(** Where an MCAuto lives: a variable, or a member of an object. *)
Inductive loc := Var (v : Z) | Slot (o j : Z).

(** [p->...]: the object must be alive. *)
Definition deref (s : rstate) (p : Z) : res obj := let* o := rd (r_objs s) p in ub_if negb (o_dead o =? 0) >>> Ok o.
Definition setObj (s : rstate) (p : Z) (o : obj) : rstate := RSt (zset (r_objs s) p o) (r_vars s) (r_toks s).
(** Reading and writing the pointer of an MCAuto. *)
Definition readLoc (s : rstate) (x : loc) : res (option Z) :=
  match x with Var v => rd (r_vars s) v | Slot o j => let* ob := deref s o in rd (o_slots ob) j end.
Definition writeLoc (s : rstate) (x : loc) (p : option Z) : res rstate :=
  match x with
  | Var v => let* l := wr (r_vars s) v p in Ok (RSt (r_objs s) l (r_toks s))
  | Slot o j => let* ob := deref s o in let* l := wr (o_slots ob) j p in Ok (setObj s o (Obj (o_cnt ob) (o_dead ob) l))
  end.

(** incrRef, MEDCouplingRefCountObject.cxx 298-302. *)
Definition incrRef (s : rstate) (p : Z) : res rstate :=
  let* o := deref s p in Ok (setObj s p (Obj (o_cnt o + 1) (o_dead o) (o_slots o))).
(** decrRef, 289-296: when the counter reaches 0 the object is deleted, and the destructor of each MCAuto member calls decrRef in turn.
    The nested calls are kept in a list; the last member is destroyed first. *)
Fixpoint decrRefs (fuel : nat) (s : rstate) (ps : list Z) : res rstate :=
  match fuel, ps with
  | _, [] => Ok s
  | O, _ => Fuel
  | Datatypes.S fuel, p :: ps =>
    let* o := deref s p in
    if o_cnt o - 1 =? 0
    then decrRefs fuel (setObj s p (Obj (o_cnt o - 1) (o_dead o + 1) (o_slots o))) (omap id (rev (o_slots o)) ++ ps)
    else decrRefs fuel (setObj s p (Obj (o_cnt o - 1) (o_dead o) (o_slots o))) ps
  end.
(** Enough for every member to be visited once. *)
Definition decrFuel (s : rstate) : nat := Datatypes.S (length (concat (o_slots <$> r_objs s))).
Definition decrRef (s : rstate) (p : Z) : res rstate := decrRefs (Datatypes.S (decrFuel s)) s [p].

(** referPtr and destroyPtr, MCAuto.hxx 102-112.  Simplification: the pointer being destroyed is set to null before decrRef rather than
    overwritten after; the difference is only visible when the object that contains it is deleted meanwhile, which is undefined in both. *)
Definition referPtr (s : rstate) (x : loc) (p : option Z) : res rstate :=
  let* s := writeLoc s x p in match p with Some p => incrRef s p | None => Ok s end.
Definition destroyPtr (s : rstate) (x : loc) : res rstate :=
  let* p := readLoc s x in
  match p with Some p => let* s := writeLoc s x None in decrRef s p | None => Ok s end.
Definition takeTok (s : rstate) (p : Z) : res rstate :=
  match list_find (eq p) (r_toks s) with Some (n, _) => Ok (RSt (r_objs s) (r_vars s) (delete n (r_toks s))) | None => UB end.
Definition addTok (s : rstate) (p : Z) : rstate := RSt (r_objs s) (r_vars s) (p :: r_toks s).
Definition newVar (s : rstate) (p : option Z) : rstate := RSt (r_objs s) (r_vars s ++ [p]) (r_toks s).

(** What the program does. *)
Inductive rcmd :=
| RNew (n : Z)                          (* [new T], counter 1 (cxx 282), with [n] null MCAuto members *)
| RCtor (p : option Z)                  (* [MCAuto<T> v(p)], MCAuto.hxx 43: takes over the reference of the caller *)
| RCopy (x : loc)                       (* [MCAuto<T> v(other)], 42 *)
| RDestroy (v : Z)                      (* [~MCAuto], 44 *)
| RNullify (x : loc)                    (* 52-56 *)
| RAssign (x y : loc)                   (* [x = y], 59-67 *)
| RAssignPtr (x : loc) (p : option Z)   (* [x = p], 68-76: takes over the reference of the caller *)
| RTakeRef (x : loc) (p : option Z)     (* 77-84 *)
| RRetn (x : loc)                       (* [x.retn()], 91-96: the caller receives a reference *)
| RIncr (p : Z) | RDecr (p : Z).        (* explicit calls *)

Definition rstep (s : rstate) (c : rcmd) : res rstate :=
  match c with
  | RNew n => Ok (RSt (r_objs s ++ [Obj 1 0 (replicate (Z.to_nat n) None)]) (r_vars s) (zlen (r_objs s) :: r_toks s))
  | RCtor p => let* s := (match p with Some p => takeTok s p | None => Ok s end) in Ok (newVar s p)
  | RCopy x => let* p := readLoc s x in referPtr (newVar s None) (Var (zlen (r_vars s))) p
  | RDestroy v => destroyPtr s (Var v)
  | RNullify x => let* s := destroyPtr s x in writeLoc s x None
  | RAssign x y =>
    let* p := readLoc s x in let* q := readLoc s y in
    if bool_decide (p = q) then Ok s else
    let* s := destroyPtr s x in
    let* q := readLoc s y in
    referPtr s x q
  | RAssignPtr x q =>
    let* s := (match q with Some q => takeTok s q | None => Ok s end) in
    let* p := readLoc s x in
    if bool_decide (p = q) then Ok s else
    let* s := destroyPtr s x in writeLoc s x q
  | RTakeRef x q =>
    let* p := readLoc s x in
    if bool_decide (p = q) then Ok s else
    let* s := destroyPtr s x in referPtr s x q
  | RRetn x => let* p := readLoc s x in match p with Some p => let* s := incrRef s p in Ok (addTok s p) | None => Ok s end
  | RIncr p => let* s := incrRef s p in Ok (addTok s p)
  | RDecr p => let* s := takeTok s p in decrRef s p
  end.
Definition rstart : rstate := RSt [] [] [].

(** * Several threads, one object.  [_cnt] is an atomic integer: [_cnt++] and [--_cnt] are one step each, but decrRef is two: the decrement,
    whose result goes to the local variable [ret] (cxx 291), then [if(ret) delete this] (292-293). *)
Record thread := Thr { t_refs : Z (* references the thread holds *); t_ret : bool (* in decrRef, [ret] is true and the test is still to come *) }.
Record cstate := CSt { c_cnt : Z; c_dead : Z; c_thr : list thread }.
Inductive cact :=
| CIncr | CDecr | CTest      (* incrRef; the two halves of decrRef *)
| CUse                       (* any other use of the object *)
| CGive (u : Z).             (* hands a reference over to thread [u] *)
Definition cstep (s : cstate) (ta : Z * cact) : res cstate :=
  let (t, a) := ta in
  let* th := rd (c_thr s) t in
  let access k := ub_if negb (c_dead s =? 0) >>> k in
  match a with
  | CIncr => access (Ok (CSt (c_cnt s + 1) (c_dead s) (zset (c_thr s) t (Thr (t_refs th + 1) (t_ret th)))))
  | CDecr => access (Ok (CSt (c_cnt s - 1) (c_dead s) (zset (c_thr s) t (Thr (t_refs th - 1) (c_cnt s - 1 =? 0)))))
  | CTest => if t_ret th then access (Ok (CSt (c_cnt s) (c_dead s + 1) (zset (c_thr s) t (Thr (t_refs th) false)))) else Ok s
  | CUse => access (Ok s)
  | CGive u =>
    let l := zset (c_thr s) t (Thr (t_refs th - 1) (t_ret th)) in
    let* tu := rd l u in Ok (CSt (c_cnt s) (c_dead s) (zset l u (Thr (t_refs tu + 1) (t_ret tu))))
  end.
(** [n] other threads; the first one creates the object. *)
Definition cstart (n : nat) : cstate := CSt 1 0 (Thr 1 false :: replicate n (Thr 0 false)).
