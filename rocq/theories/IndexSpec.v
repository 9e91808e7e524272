(** Vocabulary of index arrays: prefix sums, packs, skylines. *)
From Verif Require Import Base.

Definition zsum (l : list Z) : Z := foldr Z.add 0 l.

(** [r] has one more element than [l] and [r[i]] is the sum of the [i] first elements of [l]. *)
Definition prefix_sums (l r : list Z) : Prop :=
  zlen r = zlen l + 1 /\ forall i, 0 <= i <= zlen l -> r @ i = Some (zsum (take (Z.to_nat i) l)).

(** The elements of [l] from position [a] to [b] excluded. *)
Definition sub {A} (l : list A) (a b : Z) : list A := take (Z.to_nat (b - a)) (drop (Z.to_nat a) l).

(** [p] is the pack number [i] of the indexed array (vals, idx). *)
Definition pack {A} (vals : list A) (idx : list Z) (i : Z) (p : list A) : Prop :=
  exists a b, idx @ i = Some a /\ idx @ (i + 1) = Some b /\ 0 <= a /\ a <= b /\ b <= zlen vals /\ p = sub vals a b.

(** (vals, idx) is the canonical indexed array of the list of packs [ps]. *)
Definition skyline {A} (ps : list (list A)) (vals : list A) (idx : list Z) : Prop :=
  vals = concat ps /\ prefix_sums (zlen <$> ps) idx.

(** Value [v] lies in range number [j] of the list of pairs [rs] (flattened: lo0,hi0,lo1,hi1,...). *)
Definition in_range (rs : list Z) (v j : Z) : Prop :=
  exists lo hi, rs @ (2 * j) = Some lo /\ rs @ (2 * j + 1) = Some hi /\ 0 <= j /\ lo <= v < hi.

(** Consecutive half-open intervals starting at [a] and ending at [b]. *)
Fixpoint chain_of_intervals (a b : Z) (r : list (Z * Z)) : Prop :=
  match r with
  | [] => a = b
  | (x, y) :: r' => x = a /\ x <= y /\ chain_of_intervals y b r'
  end.

(** The block of the id [id] for the offsets [offs]: the integers from offs[id] to offs[id+1] excluded. *)
Definition id_block (offs : list Z) (id : Z) (blk : list Z) : Prop :=
  exists a b, offs @ id = Some a /\ offs @ (id + 1) = Some b /\ a <= b /\ blk = seqZ a (b - a).
(** The block of [id]: [id] repeated as many times as offs[id+1]-offs[id]. *)
Definition rep_block (offs : list Z) (id : Z) (blk : list Z) : Prop :=
  exists a b, offs @ id = Some a /\ offs @ (id + 1) = Some b /\ a <= b /\ blk = replicate (Z.to_nat (b - a)) id.

(** [res] is [old] where the pack ids[k] is news[k] (the last one when an id is repeated) and the packs not in [ids] are kept. *)
Definition packs_replaced {A} (old : list (list A)) (ids : list Z) (news res : list (list A)) : Prop :=
  zlen res = zlen old /\
  (forall i k p, ids @ k = Some i -> (forall k', k < k' -> ids @ k' <> Some i) -> news @ k = Some p -> res @ i = Some p) /\
  (forall i, i ∉ ids -> res @ i = old @ i).

(** Every integer of the range number [j] of the offsets [off] belongs to [ids]. *)
Definition range_full (off ids : list Z) (j : Z) : Prop :=
  exists a b, off @ j = Some a /\ off @ (j + 1) = Some b /\ forall v, a <= v < b -> v ∈ ids.
(** The last id of the list is strictly inside a range of which all the ids up to it are in the list. *)
Definition ends_inside (off ids : list Z) : Prop :=
  exists j a b v, off @ j = Some a /\ off @ (j + 1) = Some b /\ ids @ (zlen ids - 1) = Some v /\ a <= v /\ v + 1 < b /\ forall x, a <= x <= v -> x ∈ ids.
