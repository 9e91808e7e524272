(** Vocabulary of unstructured meshes. *)
From Coq Require Import QArith.
From Verif Require Import Base DataArray IndexSpec PartSpec TreeSpec CellTable UmModel.
Local Open Scope Z_scope.

(** A cell: its type and its nodes (with -1 between the faces of a polyhedron). *)
Definition cell : Type := Z * list Z.
(** The nodal connectivity and its index hold these cells, each one as its type followed by its nodes. *)
Definition stores (m : umesh) (cells : list cell) : Prop :=
  exists conn connI, um_conn m = Some conn /\ um_connI m = Some connI /\ skyline ((fun c : cell => c.1 :: c.2) <$> cells) conn connI.
Fixpoint ascending (l : list Z) : Prop := match l with [] => True | x :: r => (forall y, y ∈ r -> x < y) /\ ascending r end.
(** The types of the mesh are those of its cells, in order, each once. *)
Definition typed (m : umesh) (cells : list cell) : Prop := ascending (um_types m) /\ forall t, t ∈ um_types m <-> exists c, c ∈ cells /\ c.1 = t.
(** Node [n] belongs to a cell. *)
Definition used (cells : list cell) (n : Z) : Prop := 0 <= n /\ exists c, c ∈ cells /\ n ∈ c.2.
(** A cell that insertNextCell takes in a mesh of dimension [dim]. *)
Definition insertable (dim : Z) (c : cell) : Prop :=
  exists k, GetCellModel c.1 = Ok k /\ cm_dim k = dim /\ (cm_dyn k = false -> zlen c.2 = cm_nbpts k).
(** A valid cell of a mesh of dimension [dim] with [nb] nodes. *)
Definition valid_cell (dim nb : Z) (c : cell) : Prop :=
  exists k, GetCellModel c.1 = Ok k /\ cm_dim k = dim /\ (cm_dyn k = false -> zlen c.2 = cm_nbpts k) /\
    (cm_quad k = true -> cm_dyn k = true -> dim = 2 -> Z.Even (zlen c.2) /\ 4 <= zlen c.2) /\
    forall n, n ∈ c.2 -> 0 <= n < nb \/ n = -1 /\ c.1 = NORM_POLYHED.
(** The cells with their nodes renamed; the separators stay. *)
Definition rename (f : Z -> Z) (c : cell) : cell := (c.1, (fun n => if 0 <=? n then f n else n) <$> c.2).
(** The point of a node: the tuple of its coordinates. *)
Definition point (m : umesh) (n : Z) (p : list Q) : Prop := exists d, um_coords m = Some d /\ da_alloc d = true /\ 0 <= n < da_nt d /\ p = sub (da_vals d) (n * da_nc d) ((n + 1) * da_nc d).
(** The mesh has coordinates for [nb] nodes. *)
Definition has_nodes (m : umesh) (nb : Z) : Prop := exists d, um_coords m = Some d /\ da_alloc d = true /\ da_wf d /\ da_nt d = nb.
(** The number of the nodes in use with an id less than [n]. *)
Definition rank_in (cells : list cell) (n k : Z) : Prop := exists l, NoDup l /\ (forall x, x ∈ l <-> used cells x /\ x < n) /\ zlen l = k.
(** The cells of node [n], in ascending order, one as many times as it has the node. *)
Fixpoint cells_of_node (k : Z) (cells : list cell) (n : Z) : list Z :=
  match cells with [] => [] | c :: r => replicate (count_occ Z.eq_dec c.2 n) k ++ cells_of_node (k + 1) r n end.
(** Two points at a distance at most [prec] on each axis. *)
Definition close (prec : Q) (p q : list Q) : Prop := Forall2 (fun x y => (Qabs.Qabs (x - y) <= Qabs.Qabs prec)%Q) p q.
(** The nodes sent to [t] by the numbering [p]. *)
Definition origins (p : list Z) (t : Z) : list Z := List.filter (fun i => bool_decide (p @ i = Some t)) (seqZ 0 (zlen p)).
Definition qsum (l : list Q) : Q := foldr Qplus 0%Q l.
(** The numbering given by an array old to new. *)
Definition ren (p : list Z) : Z -> Z := fun v => default (-1) (p @ v).
(** Only the connectivity differs. *)
Definition same_but_conn (m m' : umesh) : Prop := um_dim m' = um_dim m /\ um_coords m' = um_coords m /\ um_types m' = um_types m.
(** The array old to new of the merge of [nb] nodes in [K]: two nodes get the same number exactly when they are near one another;
    the numbers are 0 to K-1, given in the order of the first nodes that have them. *)
Definition merged (nb : Z) (d : da Q) (prec : Q) (r : list Z) (K : Z) : Prop :=
  zlen r = nb /\ (forall i j a b, r @ i = Some a -> r @ j = Some b -> a = b <-> i = j \/ near (da_vals d) (da_nc d) i prec (da_vals d) j) /\ (forall v, v ∈ r <-> 0 <= v < K) /\ ordered_by_first r.
(** The cells [ids] of [cells], in the order of [ids]. *)
Definition picked (cells : list cell) (ids : list Z) (sel : list cell) : Prop := Forall2 (fun i c => cells @ i = Some c) ids sel.
(** The cells that lie on the nodes [ids]: with all their nodes, with at least one. *)
Definition lies_on (fullyIn : bool) (ids : list Z) (c : cell) : Prop :=
  if fullyIn then forall n, n ∈ c.2 -> 0 <= n -> n ∈ ids else exists n, n ∈ c.2 /\ 0 <= n /\ n ∈ ids.
(** The nodes of a cell, without the separators of a polyhedron. *)
Definition nodes_of (c : cell) : list Z := List.filter (fun v => negb ((c.1 =? NORM_POLYHED) && (v =? -1))) c.2.
