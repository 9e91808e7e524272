(** What is said of fields sharing meshes and arrays. *)
From stdpp Require Import strings.
From Verif Require Import Base ArrLib MfModel.
From Coq Require Import QArith.
Local Open Scope Z_scope.
Local Open Scope list_scope.

(** The number [r] stands for the pointer [p] of the list [ds]; -1 stands for the null pointer. *)
Definition RefOf (ds : list Z) (p : option Z) (r : Z) : Prop := match p with None => r = -1 | Some x => ds @ r = Some x end.
(** [ds] are the pointers of [l], each once, in the order in which [l] meets them. *)
Definition Distinct (l : list (option Z)) (ds : list Z) : Prop :=
  NoDup ds /\ (forall p, p ∈ ds <-> Some p ∈ l) /\
  (forall n, exists k, forall p, p ∈ take k ds <-> Some p ∈ take n l).

(** The mesh and the arrays of each field; a null field has none. *)
Definition meshOf {I} (f : option (fld I)) : option Z := match f with Some f => f_mesh f | None => None end.
Definition arraysOf {I} (f : option (fld I)) : list (option Z) := match f with Some f => f_arrays f | None => [] end.

(** A field as the library builds them: the number of arrays and of steps is that of its time discretization. *)
Definition WellTimed {I} (f : fld I) : Prop :=
  (f_kind f = 4 /\ zlen (f_times f) = 0 /\ zlen (f_arrays f) = 1) \/ (f_kind f = 5 /\ zlen (f_times f) = 1 /\ zlen (f_arrays f) = 1) \/
  (f_kind f = 6 /\ zlen (f_times f) = 2 /\ zlen (f_arrays f) = 2) \/ (f_kind f = 7 /\ zlen (f_times f) = 2 /\ zlen (f_arrays f) = 1).
(** Its pointers are those of objects in memory. *)
Definition InMemory {M A I} (s : store M A) (f : fld I) : Prop :=
  (forall m, f_mesh f = Some m -> 0 <= m < zlen (st_mesh s)) /\ (forall a, Some a ∈ f_arrays f -> 0 <= a < zlen (st_arr s)).

(** What a copy of a field keeps. *)
Definition SameData {I} (f g : fld I) : Prop :=
  f_info g = f_info f /\ f_kind g = f_kind f /\ f_tol g = f_tol f /\ f_times g = f_times f.
(** [p'] is a new object of the memory [h'] with the contents of [p]; null for null. *)
Definition FreshCopy {X} (h h' : list X) (p p' : option Z) : Prop :=
  match p, p' with
  | None, None => True
  | Some x, Some y => zlen h <= y /\ exists c, h @ x = Some c /\ h' @ y = Some c
  | _, _ => False
  end.
(** [f] and [f'] at the same rank of the two lists. *)
Definition Pair {I} (fs fs' : list (option (fld I))) (f f' : fld I) : Prop := exists i, fs @ i = Some (Some f) /\ fs' @ i = Some (Some f').
(** Two copies have the same mesh, the same array, exactly when the two fields they come from have. *)
Definition SameSharing {I} (fs fs' : list (option (fld I))) : Prop :=
  (forall f f' g g', Pair fs fs' f f' -> Pair fs fs' g g' -> f_mesh f' = f_mesh g' <-> f_mesh f = f_mesh g) /\
  (forall f f' g g' a b p p' q q', Pair fs fs' f f' -> Pair fs fs' g g' ->
     f_arrays f @ a = Some p -> f_arrays f' @ a = Some p' -> f_arrays g @ b = Some q -> f_arrays g' @ b = Some q' -> p' = q' <-> p = q).
(** The pointer [p'] of the list [ds'] at the rank of [p] in [ds]; null for null. *)
Definition Corr (ds ds' : list Z) (p p' : option Z) : Prop :=
  match p, p' with None, None => True | Some x, Some y => exists k, ds @ k = Some x /\ ds' @ k = Some y | _, _ => False end.
(** Fields equal one to one: both null, the same field, or fields found equal. *)
Definition PairwiseEqual {I} (feq : fld I -> fld I -> bool) (a b : list (option (fld I))) : Prop :=
  forall i x y, a @ i = Some x -> b @ i = Some y ->
    match x, y with Some f, Some g => f_ptr f = f_ptr g \/ feq f g = true | None, None => True | _, _ => False end.
(** The same pointers are null, and the same are equal, in the two lists. *)
Definition SamePattern (l l' : list (option Z)) : Prop :=
  zlen l = zlen l' /\ (forall i x x', l @ i = Some x -> l' @ i = Some x' -> x = None <-> x' = None) /\
  (forall i j x y x' y', l @ i = Some x -> l @ j = Some y -> l' @ i = Some x' -> l' @ j = Some y' -> x = y <-> x' = y').
