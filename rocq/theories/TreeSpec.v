(** What the searches must find, in terms of the coordinates. *)
From Coq Require Import QArith Qabs.
From Verif Require Import Base DataArray TreeModel.
Local Open Scope Z_scope.

(** The bounds of the box [e] along the axis [k]; the coordinate [k] of the point [e]; those of the searched box and point. *)
Definition lower (bbs : list Q) (dim e k : Z) : Q := default 0%Q (bbs @ (e * dim * 2 + k * 2)).
Definition upper (bbs : list Q) (dim e k : Z) : Q := default 0%Q (bbs @ (e * dim * 2 + k * 2 + 1)).
Definition at_ (pts : list Q) (dim e k : Z) : Q := default 0%Q (pts @ (e * dim + k)).
(** [n] boxes, [n] points of dimension [dim]. *)
Definition boxes (bbs : list Q) (dim n : Z) : Prop := 1 <= dim /\ 0 <= n /\ zlen bbs = n * dim * 2.
Definition points {A} (pts : list A) (dim n : Z) : Prop := 1 <= dim /\ 0 <= n /\ zlen pts = n * dim.
(** The boxes [e] of [bbs] and [e'] of [bbs'] overlap by [eps] at least on each axis: a negative [eps] enlarges them. *)
Definition overlap (bbs : list Q) (dim e : Z) (eps : Q) (bbs' : list Q) (e' : Z) : Prop :=
  forall k, 0 <= k < dim -> (lower bbs dim e k + eps <= upper bbs' dim e' k /\ lower bbs' dim e' k + eps <= upper bbs dim e k)%Q.
(** The point is in the box enlarged by [eps]. *)
Definition contains (bbs : list Q) (dim e : Z) (eps : Q) (x : list Q) : Prop :=
  forall k, 0 <= k < dim -> (lower bbs dim e k - eps <= at_ x dim 0 k <= upper bbs dim e k + eps)%Q.
(** Two points are at most at [eps] of one another in the infinite norm. *)
Definition near (pts : list Q) (dim e : Z) (eps : Q) (pts' : list Q) (e' : Z) : Prop :=
  forall k, 0 <= k < dim -> (Qabs (at_ pts dim e k - at_ pts' dim e' k) <= Qabs eps)%Q.
(** Two tuples of integers are equal. *)
Definition equal_tuples (v : list Z) (dim e : Z) (v' : list Z) (e' : Z) : Prop := forall k, 0 <= k < dim -> v @ (e * dim + k) = v' @ (e' * dim + k).
(** The elements of the terminals. *)
Definition contents (t : tree) : list Z := match t with Leaf _ es => es | Node _ _ _ _ _ => [] end.
Fixpoint terminals (t : tree) : list tree := match t with Leaf _ _ => [t] | Node _ _ _ l r => terminals l ++ terminals r end.
(** The square of the distance between two points. *)
Definition sqdist (pts : list Q) (dim e : Z) (pts' : list Q) (e' : Z) : Q :=
  foldl (fun s k => s + (at_ pts dim e k - at_ pts' dim e' k) * (at_ pts dim e k - at_ pts' dim e' k))%Q 0%Q (seqZ 0 dim).
(** The groups of coincident tuples among [n], for the relation [N]: each one is a tuple followed by all the tuples coincident with it whose id is [limit] at least,
    the first ones are increasing, and a tuple from [limit] is in a group as soon as it is coincident with another tuple. *)
Definition coincident_groups (n limit : Z) (N : Z -> Z -> Prop) (gs : list (list Z)) : Prop :=
  (forall g, g ∈ gs -> NoDup g /\ exists h rest, g = h :: rest /\ rest <> [] /\ 0 <= h < n /\ forall e, e ∈ rest <-> 0 <= e < n /\ limit <= e /\ e <> h /\ N h e) /\
  (forall a b g g', a < b -> gs @ a = Some g -> gs @ b = Some g' -> exists h h', g @ 0 = Some h /\ g' @ 0 = Some h' /\ h < h') /\
  (forall j, 0 <= j < n -> limit <= j -> (exists g, g ∈ gs /\ j ∈ g) <-> exists i, 0 <= i < n /\ i <> j /\ N i j).
(** The groups are the classes of two elements at least of the relation [N] on [0,n), each one with its least element first. *)
Definition classes (n : Z) (N : Z -> Z -> Prop) (gs : list (list Z)) : Prop :=
  NoDup (concat gs) /\
  (forall i j, i <> j -> (exists g, g ∈ gs /\ i ∈ g /\ j ∈ g) <-> 0 <= i < n /\ 0 <= j < n /\ N i j) /\
  (forall g, g ∈ gs -> exists h rest, g = h :: rest /\ rest <> [] /\ forall e, e ∈ rest -> h < e).
(** Coincidence with this tolerance is transitive. *)
Definition transitive_on (n : Z) (N : Z -> Z -> Prop) : Prop := forall i j k, 0 <= i < n -> 0 <= j < n -> 0 <= k < n -> N i j -> N j k -> N i k.
