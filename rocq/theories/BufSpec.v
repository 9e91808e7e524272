(** Sessions of calls, and the sequence an array stands for. *)
From Verif Require Import Base BufModel.

(** The outcome of a call: an exception, or a normal return with the value returned, if any. *)
Inductive outcome (A : Type) := Threw | Returned (v : option (option A)).
Arguments Threw {A}. Arguments Returned {A} _.

(** A session: calls one after the other, the caller catching the exceptions. *)
Fixpoint session {A S} (f : S -> cmd A -> res (S * option (option A))) (s : S) (cs : list (cmd A)) : res (S * list (outcome A)) :=
  match cs with
  | [] => Ok (s, [])
  | c :: cs =>
    match f s c with
    | Ok (s', v) => let* (s'', os) := session f s' cs in Ok (s'', Returned v :: os)
    | Throw => let* (s'', os) := session f s cs in Ok (s'', Threw :: os)
    | UB => UB
    | Fuel => Fuel
    end
  end.

(** The abstract array: number of components and, if allocated, the sequence of values ([None]: not yet given). *)
Definition aview (A : Type) : Type := Z * option (list (option A)).
Definition unset {A} (n : Z) : list (option A) := replicate (Z.to_nat n) None.
Definition content {A} (v : aview A) : list (option A) := default [] v.2.
(** What a call does to the abstract array. *)
Definition aop {A} (v : aview A) (c : cmd A) : res (aview A * option (option A)) :=
  let (nc, o) := v in
  let l := content v in
  let nt := if nc =? 0 then 0 else Z.quot (zlen l) nc in
  match c with
  | Alloc n c' => Ok ((c', Some (unset (c' * n))), None)
  | AllocIfNecessary n c' => Ok (if negb (bool_decide (is_Some o)) || negb (n =? nt) || negb (c' =? nc) then (c', Some (unset (c' * n))) else v, None)
  | Reserve n => if (nc =? 0) || (nc =? 1) then Ok ((1, if (n =? 0) && negb (bool_decide (is_Some o)) then None else Some (take (Z.to_nat n) l)), None) else Throw
  | ReAlloc n => match o with None => Throw | Some l => Ok ((nc, Some (take (Z.to_nat (nc * n)) l ++ unset (nc * n - zlen l))), None) end
  | Pack => Ok (v, None)
  | Push x => if (nc =? 0) || (nc =? 1) then Ok ((1, Some (l ++ [Some x])), None) else Throw
  | Pop => if (nc =? 1) && (0 <? zlen l) then Ok ((nc, Some (take (Z.to_nat (zlen l - 1)) l)), l @ (zlen l - 1)) else Throw
  | Insert k => if (nc =? 0) || (nc =? 1) then Ok ((1, match o, k with None, [] => None | _, _ => Some (l ++ (Some <$> k)) end), None) else Throw
  | Write id x k => Ok ((nc, Some (take (Z.to_nat id) l ++ Some x :: (Some <$> k) ++ drop (Z.to_nat (id + 1 + zlen k)) l)), None)
  | Fill x => match o with None => Throw | Some l => Ok ((nc, Some ((fun _ => Some x) <$> l)), None) end
  | DeepCopy c' k => Ok ((c', Some (Some <$> k)), None)
  | Desallocate => Ok ((nc, None), None)
  | NewClient _ _ => Ok (v, None)
  | UseOwned _ cells n c' => Ok ((c', Some (take (Z.to_nat (n * c')) cells)), None)
  | UseExternal _ _ _ _ | UseRW _ _ _ => UB
  end.

(** What the array stands for: the first [m_nb] cells of its block. *)
Definition view {A} (s : st A) : aview A :=
  (s_nc s, b ← constPointer (s_mem s); blk ← s_heap s @ b; Some (take (Z.to_nat (m_nb (s_mem s))) (b_cells blk))).
Definition read_only {A} (s : st A) : Prop := m_ext (s_mem s) <> None.

(** The caller's side: sizes are not negative, blocks are large enough, registered blocks are blocks of the caller, and
    writeOnPlace is used on one component and does not leave a gap. *)
Definition cmd_ok {A} (s : st A) (c : cmd A) : Prop :=
  match c with
  | Alloc n c' | AllocIfNecessary n c' => 0 <= n /\ 0 <= c'
  | Reserve n => 0 <= n
  | ReAlloc n => 0 <= n
  | Write id _ _ => s_nc s = 1 /\ 0 <= id <= m_nb (s_mem s)
  | DeepCopy c' l => 0 <= c' /\ exists n, 0 <= n /\ zlen l = n * c'
  | UseOwned _ cells n c' => 0 <= n /\ 0 <= c' /\ n * c' <= zlen cells
  | UseExternal b _ n c' => 0 <= n /\ 1 <= c' /\ exists blk, s_heap s @ b = Some blk /\ b_array blk = false /\ n * c' <= zlen (b_cells blk)
  | UseRW b n c' => 0 <= n /\ 0 <= c' /\ exists blk, s_heap s @ b = Some blk /\ b_array blk = false /\ n * c' <= zlen (b_cells blk)
  | _ => True
  end.
Fixpoint session_ok {A} (s : st A) (cs : list (cmd A)) : Prop :=
  match cs with
  | [] => True
  | c :: cs => cmd_ok s c /\ match step s c with Ok (s', _) => session_ok s' cs | Throw => session_ok s cs | _ => True end
  end.
Definition no_external {A} (c : cmd A) : Prop := match c with UseExternal _ _ _ _ | UseRW _ _ _ => False | _ => True end.
(** The block [b] is not registered for writing. *)
Definition not_rw {A} (b : Z) (c : cmd A) : Prop := match c with UseRW b' _ _ => b' <> b | _ => True end.
(** How many times a block must have been released: the blocks of the caller never; the blocks of the array once, except the one it
    is using. *)
Definition releases {A} (s : st A) (b : Z) (blk : block A) : Z :=
  if b_array blk then (if m_own (s_mem s) && bool_decide (m_int (s_mem s) = Some b) then 0 else 1) else 0.
