(** Vocabulary of the comparison of cells. *)
From Verif Require Import Base DataArray StdModel IndexSpec RenumSpec PartSpec CellTable UmModel UmSpec.

Definition has_dim (t d : Z) : Prop := exists k, GetCellModel t = Ok k /\ cm_dim k = d.
(** The same list turned. *)
Definition rotated (l l' : list Z) : Prop := exists a b, l = a ++ b /\ l' = b ++ a.
Definition same_nodes (l l' : list Z) : Prop := zlen l = zlen l' /\ forall n, n ∈ l <-> n ∈ l'.
(** Two cells alike for each policy: 0, the same list of nodes; 1, the same type and the same list of nodes turned (not turned in dimension 1);
    2, the same type, number of nodes and set of nodes; 3, the same number of nodes and set of nodes. *)
Definition alike (policy : Z) (c d : cell) : Prop :=
  if policy =? 0 then c.2 = d.2
  else if policy =? 1 then c.1 = d.1 /\ rotated c.2 d.2 /\ (has_dim c.1 1 -> c.2 = d.2)
  else if policy =? 2 then c.1 = d.1 /\ same_nodes c.2 d.2
  else same_nodes c.2 d.2.
(** The policies and the cells to which they apply: policy 1 is for the known types of a dimension other than 3. *)
Definition policy_for (policy : Z) (cells : list cell) : Prop :=
  0 <= policy <= 3 /\ (policy = 1 -> forall c, c ∈ cells -> exists k, GetCellModel c.1 = Ok k /\ cm_dim k <> 3).
(** Each cell has a node; no node but the separator is negative. *)
Definition with_nodes (cells : list cell) : Prop := forall c, c ∈ cells -> (exists n, n ∈ c.2 /\ 0 <= n) /\ forall n, n ∈ c.2 -> -1 <= n.
(** Each cell has a node that it has only once. *)
Definition simple (cells : list cell) : Prop := forall c, c ∈ cells -> exists n, 0 <= n /\ count_occ Z.eq_dec c.2 n = 1%nat.
(** The groups of cells found when the search begins with cell [k]: two different cells are in one group exactly when they are alike and alike
    to a cell of rank at least [k]. *)
Definition groups_of (policy k : Z) (cells : list cell) (gs : list (list Z)) : Prop :=
  (forall i j c d, i <> j -> cells @ i = Some c -> cells @ j = Some d ->
     (exists g, g ∈ gs /\ i ∈ g /\ j ∈ g) <-> alike policy c d /\ exists l e, k <= l /\ cells @ l = Some e /\ alike policy e c) /\
  (forall g x, g ∈ gs -> x ∈ g -> 0 <= x < zlen cells) /\
  (forall a b g h x, gs @ a = Some g -> gs @ b = Some h -> x ∈ g -> x ∈ h -> a = b) /\
  (forall g, g ∈ gs -> StronglySorted Z.le g /\ 2 <= zlen g) /\
  (simple cells -> forall g, g ∈ gs -> NoDup g).
(** The cells [new] are those left of [cells] by the array old to new [r]: the last one of each group. *)
Definition kept_last (cells new : list cell) (r : list Z) : Prop :=
  forall t i, last_pos r t i -> new @ t = cells @ i.
(** [r] numbers from 0 to [K - 1] what is left of the cells when those alike, and alike to a cell of rank at least [k], are taken as one. *)
Definition quotient (policy k : Z) (cells : list cell) (r : list Z) (K : Z) : Prop :=
  zlen r = zlen cells /\
  (forall i j c d a b, cells @ i = Some c -> cells @ j = Some d -> r @ i = Some a -> r @ j = Some b ->
     a = b <-> i = j \/ alike policy c d /\ exists l e, k <= l /\ cells @ l = Some e /\ alike policy e c) /\
  (forall v, v ∈ r <-> 0 <= v < K) /\ ordered_by_first r.
(** What is known of the cells of [B] when they are looked for in [A]: [b] tells that each is alike to a cell of [A];
    the array has the last such cell of [A], and a number out of [A] for the others, at least when the cells of [A] are different. *)
Definition different (policy : Z) (A : list cell) : Prop := forall i j c d, A @ i = Some c -> A @ j = Some d -> alike policy c d -> i = j.
Definition found_in (policy : Z) (A B : list cell) (b : bool) (a : list Z) : Prop :=
  zlen a = zlen B /\ (b = true <-> forall d, d ∈ B -> exists c, c ∈ A /\ alike policy c d) /\
  forall j d v, B @ j = Some d -> a @ j = Some v ->
    (exists c, A @ v = Some c /\ alike policy c d /\ forall w e, A @ w = Some e -> alike policy e d -> w <= v) \/
    ((forall c, c ∈ A -> ~ alike policy c d) /\ (different policy A -> zlen A <= v)).
