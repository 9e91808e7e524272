(** The buffer of an array: growth, ownership, release (class MemArray, and the DataArrayTemplate functions that drive it). *)
From Verif Require Import Base.

(** The deallocators, MEDCouplingMemArray.txx 484-496.  COffsetDeallocator (498-505) is left out. *)
Inductive dkind := CPP | CC.
Definition dkind_eqb (a b : dkind) : bool := match a, b with CPP, CPP | CC, CC => true | _, _ => false end.

(** A block of memory.  [b_cells]: its cells, [None] when never written.  [b_freed]: how many times it was released.  [b_array] is a
    ghost: true for the blocks the array is responsible for (allocated by it, or given with ownership). *)
Record block (A : Type) := Blk { b_kind : dkind; b_cells : list (option A); b_freed : Z; b_array : bool }.
Arguments Blk {A} _ _ _ _.
Arguments b_kind {A} _. Arguments b_cells {A} _. Arguments b_freed {A} _. Arguments b_array {A} _.
(** The memory: an address is a position in this list.  malloc never fails, and returns a non null pointer even for 0 element. *)
Notation heap A := (list (block A)).

(** MemArray, MEDCouplingMemArray.hxx 148-154, with the two pointers of MEDCouplingPointer 87-88.  The parameter of the deallocator
    is left out. *)
Record mem := Mem { m_nb : Z; m_nalloc : Z; m_own : bool; m_int : option Z; m_ext : option Z; m_dealloc : option dkind }.

(** The array together with the memory; [s_nc] is its number of components. *)
Record st (A : Type) := St { s_heap : heap A; s_mem : mem; s_nc : Z }.
Arguments St {A} _ _ _. Arguments s_heap {A} _. Arguments s_mem {A} _. Arguments s_nc {A} _.

(** hxx 63-69, and 77-85: writing through an external pointer is refused. *)
Definition constPointer (m : mem) : option Z := match m_int m with Some b => Some b | None => m_ext m end.
Definition getPointer (m : mem) : res (option Z) :=
  match m_int m with Some b => Ok (Some b) | None => match m_ext m with Some _ => Throw | None => Ok None end end.

Section Buf.
  Context {A : Type}.
  Implicit Types (h : heap A) (m : mem).

  (** [delete [] p], [free(p)]: the block must be alive and have been obtained the matching way. *)
  Definition release h (b : Z) (k : dkind) : res (heap A) :=
    let* blk := rd h b in
    ub_if negb (b_freed blk =? 0) || negb (dkind_eqb (b_kind blk) k) >>>
    wr h b (Blk (b_kind blk) (b_cells blk) (b_freed blk + 1) (b_array blk)).
  (** DestroyPointer, txx 524-530.  Releasing the null pointer does nothing. *)
  Definition DestroyPointer h (p : option Z) (d : option dkind) : res (heap A) :=
    match d, p with Some k, Some b => release h b k | _, _ => Ok h end.
  (** A write at [p[i]]; the block must be alive. *)
  Definition writeCell h (p : option Z) (i : Z) (x : A) : res (heap A) :=
    match p with
    | None => UB
    | Some b =>
      let* blk := rd h b in
      ub_if negb (b_freed blk =? 0) >>>
      let* c := wr (b_cells blk) i (Some x) in
      wr h b (Blk (b_kind blk) c (b_freed blk) (b_array blk))
    end.
  (** A read at [p[i]]: the cell, which may never have been written. *)
  Definition readCell h (p : option Z) (i : Z) : res (option A) :=
    match p with
    | None => UB
    | Some b => let* blk := rd h b in ub_if negb (b_freed blk =? 0) >>> rd (b_cells blk) i
    end.
  (** [q = malloc(n*sizeof(T)); std::copy(p, p+k, q)]: the cells of the new block. *)
  Definition copyPrefix h (p : option Z) (k n : Z) : res (list (option A)) :=
    ub_if (n <? k) || (k <? 0) >>>
    if k =? 0 then Ok (malloc A n) else
    match p with
    | None => UB
    | Some b =>
      let* blk := rd h b in
      ub_if negb (b_freed blk =? 0) || (zlen (b_cells blk) <? k) >>>
      Ok (take (Z.to_nat k) (b_cells blk) ++ malloc A (n - k))
    end.
  (** A new block obtained by malloc. *)
  Definition newBlock h (cells : list (option A)) : heap A * Z := (h ++ [Blk CC cells 0 true], zlen h).

  (** destroy, txx 532-546. *)
  Definition destroy h m : res (heap A * mem) :=
    let* h := (if m_own m then DestroyPointer h (constPointer m) (m_dealloc m) else Ok h) in
    Ok (h, Mem 0 0 false None None None).
  (** alloc, 407-416. *)
  Definition malloc_ h m (n : Z) : res (heap A * mem) :=
    let* (h, _) := destroy h m in
    let (h, b) := newBlock h (malloc A n) in
    Ok (h, Mem n n true (Some b) None (Some CC)).
  (** useArray, 76-89 (BuildFromType 507-522). *)
  Definition useArray h m (b : Z) (own : bool) (k : dkind) (n : Z) : res (heap A * mem) :=
    let* (h, _) := destroy h m in
    Ok (h, Mem n n own (if own then Some b else None) (if own then None else Some b) (Some k)).
  (** useExternalArrayWithRWAccess, 91-101. *)
  Definition useRW h m (b n : Z) : res (heap A * mem) :=
    let* (h, _) := destroy h m in
    Ok (h, Mem n n false (Some b) None (Some CPP)).
  (** reserve, 429-452. *)
  Definition reserve_ h m (n : Z) : res (heap A * mem) :=
    if m_nalloc m =? n then Ok (h, m) else
    let* cells := copyPrefix h (constPointer m) (Z.min (m_nb m) n) n in
    let (h, b) := newBlock h cells in
    let* h := (if m_own m then DestroyPointer h (constPointer m) (m_dealloc m) else Ok h) in
    Ok (h, Mem (Z.min (m_nb m) n) n true (Some b) None (Some CC)).
  (** reAlloc, 461-484. *)
  Definition reAlloc_ h m (n : Z) : res (heap A * mem) :=
    if m_nb m =? n then Ok (h, m) else
    let* cells := copyPrefix h (constPointer m) (Z.min (m_nb m) n) n in
    let (h, b) := newBlock h cells in
    let* h := (if m_own m then DestroyPointer h (constPointer m) (m_dealloc m) else Ok h) in
    Ok (h, Mem n n true (Some b) None (Some CC)).
  (** pushBack, 115-123. *)
  Definition pushBack h m (x : A) : res (heap A * mem) :=
    let* (h, m) := (if m_nalloc m <=? m_nb m then reserve_ h m (if 0 <? m_nalloc m then 2 * m_nalloc m else 1) else Ok (h, m)) in
    let* p := getPointer m in
    let* h := writeCell h p (m_nb m) x in
    Ok (h, Mem (m_nb m + 1) (m_nalloc m) (m_own m) (m_int m) (m_ext m) (m_dealloc m)).
  (** popBack, 125-135. *)
  Definition popBack h m : res (mem * option A) :=
    if 0 <? m_nb m then
      let* x := readCell h (constPointer m) (m_nb m - 1) in
      Ok (Mem (m_nb m - 1) (m_nalloc m) (m_own m) (m_int m) (m_ext m) (m_dealloc m), x)
    else Throw.
  (** insertAtTheEnd, MEDCouplingMemArray.hxx 1476-1492. *)
  Definition insertAtTheEnd_ h m (l : list A) : res (heap A * mem) :=
    let* p := getPointer m in
    let* (h, m, _) := foldM (fun '(h, m, p) x =>
      let* (h, m, p) := (if m_nalloc m <=? m_nb m then
          let* (h, m) := reserve_ h m (if 0 <? m_nalloc m then 2 * m_nalloc m else 1) in
          let* p := getPointer m in Ok (h, m, p)
        else Ok (h, m, p)) in
      let* h := writeCell h p (m_nb m) x in
      Ok (h, Mem (m_nb m + 1) (m_nalloc m) (m_own m) (m_int m) (m_ext m) (m_dealloc m), p)) l (h, m, p) in
    Ok (h, m).
  (** writeOnPlace, txx 103-112. *)
  Definition writeOnPlace_ h m (id : Z) (x : A) (others : list A) : res (heap A * mem) :=
    let sz := zlen others in
    let* (h, m) := (if m_nalloc m <=? id + sz then reserve_ h m (2 * m_nb m + sz + 1) else Ok (h, m)) in
    let* p := getPointer m in
    let* h := writeCell h p id x in
    let* (h, _) := foldM (fun '(h, i) y => let* h := writeCell h p i y in Ok (h, i + 1)) others (h, id + 1) in
    Ok (h, Mem (Z.max (m_nb m) (id + sz + 1)) (m_nalloc m) (m_own m) (m_int m) (m_ext m) (m_dealloc m)).
  (** fillWithValue, 329-335: [std::fill(pt, pt+_nb_of_elem, val)]. *)
  Definition fill_ h m (x : A) : res (heap A) :=
    let* p := getPointer m in
    forZ 0 (m_nb m) (fun i h => writeCell h p i x) h.

  (** What the caller does.  [NewClient]: the caller allocates a block of their own.  [UseOwned]: useArray with ownership of a block
      just allocated by the caller.  [UseExternal], [UseRW]: registration of a block of the caller. *)
  Inductive cmd :=
  | Alloc (nt nc : Z) | AllocIfNecessary (nt nc : Z) | Reserve (n : Z) | ReAlloc (nt : Z) | Pack | Push (x : A) | Pop | Insert (l : list A)
  | Write (id : Z) (x : A) (others : list A) | Fill (x : A) | DeepCopy (nc : Z) (l : list A) | Desallocate
  | NewClient (k : dkind) (cells : list (option A)) | UseOwned (k : dkind) (cells : list (option A)) (nt nc : Z)
  | UseExternal (b : Z) (k : dkind) (nt nc : Z) | UseRW (b : Z) (nt nc : Z).

  Definition isAllocated m : bool := match constPointer m with Some _ => true | None => false end.
  (** MEDCouplingMemArray.hxx 315. *)
  Definition nbTuples (s : st A) : Z := if s_nc s =? 0 then 0 else Z.quot (m_nb (s_mem s)) (s_nc s).
  (** The check on the number of components shared by reserve, pushBackSilent, insertAtTheEnd. *)
  Definition oneComp {B} (nc : Z) (k : res B) : res B := throw_if negb (nc =? 1) && negb (nc =? 0) >>> k.
  Definition lift (nc : Z) (r : res (heap A * mem)) : res (st A * option (option A)) := let* (h, m) := r in Ok (St h m nc, None).
  Definition doAlloc (s : st A) (nt nc : Z) : res (heap A * mem) := malloc_ (s_heap s) (s_mem s) (nc * nt).
  Definition allocNeeded (s : st A) (nt nc : Z) : bool :=
    negb (isAllocated (s_mem s)) || negb (nt =? nbTuples s) || negb (nc =? s_nc s).

  (** One call on the array: alloc txx 817-824, allocIfNecessary 1035-1046, reserve 955-975, reAlloc 1118-1125, pack 898-903,
      pushBackSilent 987-1005, popBackSilent 1013-1026, insertAtTheEnd hxx 1494-1511 (pushBackValsSilent 1525-1544 is the same),
      writeOnPlace hxx 457-460, fillWithValue txx 1102-1109, deepCopyFrom 1067-1079, desallocate 939-944, useArray 838-847,
      useExternalArrayWithRWAccess 849-856.  When a call throws nothing has been modified. *)
  Definition step (s : st A) (c : cmd) : res (st A * option (option A)) :=
    let h := s_heap s in let m := s_mem s in let nc := s_nc s in
    match c with
    | Alloc nt nc' => lift nc' (doAlloc s nt nc')
    | AllocIfNecessary nt nc' => if allocNeeded s nt nc' then lift nc' (doAlloc s nt nc') else lift nc (Ok (h, m))
    | Reserve n => oneComp nc (lift 1 (reserve_ h m n))
    | ReAlloc nt => throw_if negb (isAllocated m) >>> lift nc (reAlloc_ h m (nc * nt))
    | Pack => lift nc (reserve_ h m (m_nb m))
    | Push x => oneComp nc (lift 1 (pushBack h m x))
    | Pop => throw_if negb (nc =? 1) >>> let* (m, x) := popBack h m in Ok (St h m nc, Some x)
    | Insert l => oneComp nc (lift 1 (insertAtTheEnd_ h m l))
    | Write id x others => lift nc (writeOnPlace_ h m id x others)
    | Fill x => throw_if negb (isAllocated m) >>> let* h := fill_ h m x in Ok (St h m nc, None)
    | DeepCopy nc' l =>
      let nt := if nc' =? 0 then 0 else Z.quot (zlen l) nc' in
      let* (h, m) := (if allocNeeded s nt nc' then doAlloc s nt nc' else Ok (h, m)) in
      let* p := getPointer m in
      let* h := forZ 0 (nt * nc') (fun i h => let* x := rd l i in writeCell h p i x) h in
      Ok (St h m nc', None)
    | Desallocate => lift nc (destroy h m)
    | NewClient k cells => Ok (St (h ++ [Blk k cells 0 false]) m nc, None)
    | UseOwned k cells nt nc' => lift nc' (useArray (h ++ [Blk k cells 0 true]) m (zlen h) true k (nt * nc'))
    | UseExternal b k nt nc' => lift nc' (useArray h m b false k (nt * nc'))
    | UseRW b nt nc' => lift nc' (useRW h m b (nt * nc'))
    end.
  (** A new array, MEDCouplingMemArray.hxx 100; no memory yet. *)
  Definition fresh : st A := St [] (Mem 0 0 false None None None) 0.
End Buf.
Arguments cmd : clear implicits.
