(** Writing a part of an array. *)
From Verif Require Import Base DataArray SlicesSpec SetModel.

(** Entry [i] is the last one with its value. *)
Definition last_at (l : list Z) (i : Z) : Prop := forall k, i < k -> l @ k <> l @ i.
(** [l'] is [l] (tuples of [nc] components) where the entry (T[i],C[j]) has received [f i j], the last one when ids are repeated, and nothing else has changed. *)
Definition written {A} (nc : Z) (T C : list Z) (f : Z -> Z -> option A) (l l' : list A) : Prop :=
  zlen l' = zlen l /\
  (forall i j t c, T @ i = Some t -> C @ j = Some c -> last_at T i -> last_at C j -> l' @ (t * nc + c) = f i j) /\
  (forall t c, 0 <= c < nc -> ~ (t ∈ T /\ c ∈ C) -> l' @ (t * nc + c) = l @ (t * nc + c)).
(** The source for [n] tuples and [k] components: as many values as entries, or one tuple repeated. *)
Definition source_fits {A} (a : da A) (n k : Z) (strict : bool) : Prop :=
  if zlen (da_vals a) =? n * k then strict = true -> da_nt a = n /\ da_nc a = k else da_nt a = 1 /\ da_nc a = k.
Definition source_value {A} (a : da A) (n k i j : Z) : option A :=
  if zlen (da_vals a) =? n * k then da_vals a @ (i * k + j) else da_vals a @ j.
(** The slice b,b+s,b+2s,... below e lies in [0,n). *)
Definition slice_in (b e s n : Z) : Prop := 0 <= b <= e /\ e <= n /\ (b < e -> 0 < s).
Definition ids_in (l : list Z) (n : Z) : Prop := forall x, x ∈ l -> 0 <= x < n.
(** The first id out of [0,n) is T[k]. *)
Definition first_out (T : list Z) (n k : Z) : Prop := (exists t, T @ k = Some t /\ ~ 0 <= t < n) /\ forall i t, i < k -> T @ i = Some t -> 0 <= t < n.
(** The outcome: the call succeeds exactly when [good], and then the entries of [T] x [C] are written; it throws otherwise, and then either
    the array is left as it was or the tuples before the first invalid one, T[k] with [stop k], have been written.  It never accesses memory out of the arrays. *)
Definition sets {A} (stop : Z -> Prop) (d : da A) (good : Prop) (T C : list Z) (f : Z -> Z -> option A) (o : out A) : Prop :=
  let '(r, d') := o in
  da_alloc d' = da_alloc d /\ da_nc d' = da_nc d /\
  (good -> r = Ok tt /\ written (da_nc d) T C f (da_vals d) (da_vals d')) /\
  (~ good -> r = Throw /\ (d' = d \/ exists k, stop k /\ written (da_nc d) (take (Z.to_nat k) T) C f (da_vals d) (da_vals d'))).
Definition nowhere (k : Z) : Prop := False.
(** Whole tuples: tuple [i] of the result is tuple sel[i] of [a]. *)
Definition tuple_of {A} (a : da A) (sel : list Z) (i j : Z) : option A := match sel @ i with Some t => ij a t j | None => None end.
Definition usable {A} (d a : da A) : Prop := da_alloc d = true /\ da_alloc a = true.
Definition usable3 {A} (d a : da A) (sel : da Z) (n : Z) : Prop := da_alloc d = true /\ da_alloc a = true /\ da_alloc sel = true /\ da_nc a = da_nc d /\ da_nc sel = n.
(** [l] is the sequence of the pairs (T[i],F[i]). *)
Definition pairs (l T F : list Z) : Prop := zlen F = zlen T /\ zlen l = 2 * zlen T /\ forall i, 0 <= i < zlen T -> l @ (2 * i) = T @ i /\ l @ (2 * i + 1) = F @ i.
Definition first_out2 (T : list Z) (n : Z) (F : list Z) (m : Z) (k : Z) : Prop :=
  (exists t f, T @ k = Some t /\ F @ k = Some f /\ ~ (0 <= t < n /\ 0 <= f < m)) /\ forall i t f, i < k -> T @ i = Some t -> F @ i = Some f -> 0 <= t < n /\ 0 <= f < m.
(** Same outcome (success or exception) and the shape of [d] kept. *)
Definition same_outcome {A} (d : da A) (x y : out A) : Prop :=
  fst x = fst y /\ da_alloc (snd x) = da_alloc d /\ da_nc (snd x) = da_nc d /\ zlen (da_vals (snd x)) = zlen (da_vals d).
