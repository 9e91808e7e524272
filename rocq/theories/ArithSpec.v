(** Arithmetic on arrays: what the operations mean. *)
From Verif Require Import Base DataArray SetModel ArithModel.

(** The three documented cases: same shape; same number of tuples and one component; same number of components and one tuple. *)
Definition shapes_fit {A} (d a : da A) : Prop := (da_nt a = da_nt d /\ (da_nc a = da_nc d \/ da_nc a = 1)) \/ (da_nt a = 1 /\ da_nc a = da_nc d).
(** The value of [a] for the entry (i,j) of an array of [nt] tuples and [nc] components: its only tuple, its only component, or its entry. *)
Definition spread {A} (a : da A) (nt nc i j : Z) : option A := ij a (if da_nt a =? nt then i else 0) (if da_nc a =? nc then j else 0).
(** The value of [a] that is combined with the entry (i,j) of [d]. *)
Definition operand {A} (d a : da A) : Z -> Z -> option A := spread a (da_nt d) (da_nc d).
(** [f] is defined on all the pairs of values it is applied to. *)
Definition defined_on {A} (f : A -> A -> res A) (d : da A) (src : Z -> Z -> option A) : Prop :=
  forall i j x y, ij d i j = Some x -> src i j = Some y -> exists v, f x y = Ok v.
(** [l] are values of the shape of [d] and entry (i,j) is the one of [d] combined with src i j. *)
Definition combines {A} (f : A -> A -> res A) (d : da A) (src : Z -> Z -> option A) (l : list A) : Prop :=
  zlen l = zlen (da_vals d) /\
  forall i j x, ij d i j = Some x -> exists y v, src i j = Some y /\ f x y = Ok v /\ l @ (i * da_nc d + j) = Some v.
(** In place: success exactly when [good], with the combined values; otherwise an exception and nothing changed. *)
Definition in_place {A} (good : Prop) (f : A -> A -> res A) (d : da A) (src : Z -> Z -> option A) (o : out A) : Prop :=
  (good -> exists l, o = (Ok tt, DA (da_alloc d) (da_nc d) l) /\ combines f d src l) /\ (~ good -> o = (Throw, d)).
(** Every value goes through [h], up to the first one that is not [ok], where an exception is thrown. *)
Definition maps_all {A} (good : Prop) (ok : Z -> A -> Prop) (h : Z -> A -> A) (d : da A) (o : out A) : Prop :=
  let '(r, d') := o in
  da_alloc d' = da_alloc d /\ da_nc d' = da_nc d /\ zlen (da_vals d') = zlen (da_vals d) /\
  (good /\ (forall k x, da_vals d @ k = Some x -> ok k x) -> r = Ok tt /\ forall k x, da_vals d @ k = Some x -> da_vals d' @ k = Some (h k x)) /\
  (~ good -> r = Throw /\ d' = d) /\
  (forall n y, good -> da_vals d @ n = Some y -> ~ ok n y -> (forall k x, k < n -> da_vals d @ k = Some x -> ok k x) ->
     r = Throw /\ (forall k x, k < n -> da_vals d @ k = Some x -> da_vals d' @ k = Some (h k x)) /\ (forall k, n <= k -> da_vals d' @ k = da_vals d @ k)).
(** A new array of [nt] tuples and [nc] components, with its entries. *)
Definition builds {A} (nt nc : Z) (val : Z -> Z -> A -> Prop) (r : res (da (option A))) : Prop :=
  exists l, r = Ok (DA true nc (Some <$> l)) /\ zlen l = nt * nc /\ forall i j, 0 <= i < nt -> 0 <= j < nc -> exists v, l @ (i * nc + j) = Some v /\ val i j v.
(** The shapes [Add] and [Multiply] accept: the one component or the one tuple may be in either array. *)
Definition shapes_fit2 {A} (a1 a2 : da A) : Prop :=
  (da_nt a1 = da_nt a2 /\ (da_nc a1 = da_nc a2 \/ (da_nc a1 = 1 /\ 1 < da_nc a2) \/ (da_nc a2 = 1 /\ 1 < da_nc a1))) \/
  (da_nc a1 = da_nc a2 /\ ((da_nt a1 = 1 /\ 1 < da_nt a2) \/ (da_nt a2 = 1 /\ 1 < da_nt a1))).
(** [v] combines the entries (i,j) of both. *)
Definition combined_at {A} (f : A -> A -> res A) (a1 a2 : da A) (nt nc i j : Z) (v : A) : Prop :=
  exists x y, spread a1 nt nc i j = Some x /\ spread a2 nt nc i j = Some y /\ f x y = Ok v.
Definition defined2 {A} (f : A -> A -> res A) (a1 a2 : da A) (nt nc : Z) : Prop :=
  forall i j x y, spread a1 nt nc i j = Some x -> spread a2 nt nc i j = Some y -> exists v, f x y = Ok v.
Definition tuple_sum (d : da Z) (i v : Z) : Prop := exists t, zlen t = da_nc d /\ (forall j, 0 <= j < da_nc d -> t @ j = ij d i j) /\ v = foldr Z.add 0 t.
Definition no_zero (a : da Z) : Prop := forall y, y ∈ da_vals a -> y <> 0.
