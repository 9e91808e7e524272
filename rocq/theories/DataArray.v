(** The DataArray object, reduced to what the modelled functions look at. *)
From Verif Require Import Base.

(** MEDCouplingMemArray.hxx 188-300 (DataArray: one string per component) and 300-470 (DataArrayTemplate: _mem).
    Simplification: the component strings are reduced to their number, the name is left out; [da_vals] is the part of the buffer below
    _nb_of_elem; the raw pointer is the list itself (ownership is modelled separately in MemArrayModel). *)
Record da (A : Type) : Type := DA { da_alloc : bool; da_nc : Z; da_vals : list A }.
Arguments DA {A} _ _ _.
Arguments da_alloc {A} _.
Arguments da_nc {A} _.
Arguments da_vals {A} _.

(** MEDCouplingMemArray.hxx 315: [_info_on_compo.empty() ? 0 : _mem.getNbOfElem()/getNumberOfComponents()]. *)
Definition da_nt {A} (d : da A) : Z := if da_nc d =? 0 then 0 else Z.quot (zlen (da_vals d)) (da_nc d).

(** MEDCouplingMemArray.txx checkAllocated (947-955): exception when no memory is attached. *)
Definition checkAllocated {A B} (d : da A) (k : res B) : res B := ifthrow (negb (da_alloc d)) k.
(** The check [if (getNumberOfComponents() != 1) throw]. *)
Definition checkOneComp {A B} (d : da A) (k : res B) : res B := ifthrow (negb (da_nc d =? 1)) k.

(** An allocated one-component array holding the given values. *)
Definition vec {A} (l : list A) : da A := DA true 1 l.

(** Invariant kept by alloc (MEDCouplingMemArray.txx 1023-1035) and every operation: the buffer holds a whole number of tuples. *)
Definition da_wf {A} (d : da A) : Prop := 0 <= da_nc d /\ exists n, 0 <= n /\ zlen (da_vals d) = n * da_nc d.

(** Value at (tuple, component), MEDCouplingMemArray.hxx getIJ 337: [_mem[tupleId*ncomp+compoId]]. *)
Definition ij {A} (d : da A) (i j : Z) : option A :=
  if (0 <=? i) && (0 <=? j) && (j <? da_nc d) then da_vals d @ (i * da_nc d + j) else None.

(** alloc (MEDCouplingMemArray.txx 819-824): the sizes are [std::size_t], so a negative request becomes a huge
    malloc, which returns a null pointer that is not checked: modelled as undefined. *)
Definition alloc (A : Type) (nbTuples nbCompo : Z) : res (list (option A)) :=
  ub_if (nbTuples <? 0) || (nbCompo <? 0) >>> Ok (malloc A (nbCompo * nbTuples)).
