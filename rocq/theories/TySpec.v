(** Vocabulary of the types of the cells. *)
From Coq Require Import QArith.
From Verif Require Import Base DataArray RenumSpec CellTable UmModel UmSpec.
Local Open Scope Z_scope.

(** The type of each cell. *)
Definition kinds (cells : list cell) : list Z := (fun c : cell => c.1) <$> cells.
(** The cells of a same type follow one another. *)
Definition contiguous (l : list Z) : Prop := forall i j k t, i < j < k -> l @ i = Some t -> l @ k = Some t -> l @ j = Some t.
(** The types listed in [order] come in this order. *)
Definition in_order (order l : list Z) : Prop :=
  forall i j s t p q, i < j -> l @ i = Some s -> l @ j = Some t -> first_pos order s p -> first_pos order t q -> p <= q.
(** The ranks of the cells of type [t]. *)
Definition ranks_of (l : list Z) (t : Z) : list Z := List.filter (fun i => bool_decide (l @ i = Some t)) (seqZ 0 (zlen l)).
(** The number of cells of type [t]; among those before [i]. *)
Definition number (l : list Z) (t : Z) : Z := Z.of_nat (count_occ Z.eq_dec l t).
Definition rank_among (l : list Z) (t i : Z) : Z := number (take (Z.to_nat i) l) t.
(** The types, each once, in the order of their first cells. *)
Fixpoint firsts (l : list Z) : list Z := match l with [] => [] | x :: r => x :: List.filter (fun y => negb (y =? x)) (firsts r) end.
(** The new mesh holds the same cells, moved by [o2n] in such a way that cells of a same type keep their order. *)
Definition moved (cells sel : list cell) (o2n : list Z) : Prop :=
  is_perm (zlen cells) o2n /\ sel ≡ₚ cells /\ (forall i t, o2n @ i = Some t -> sel @ t = cells @ i) /\
  forall i j t p q, i < j -> kinds cells @ i = Some t -> kinds cells @ j = Some t -> o2n @ i = Some p -> o2n @ j = Some q -> p < q.
(** Whether the types are all known once the cells before a cell of a type already met, that follows a cell of another type, are seen. *)
Definition early (l : list Z) : Prop := forall i s t, l @ (i - 1) = Some s -> l @ i = Some t -> s <> t -> t ∈ take (Z.to_nat i) l -> forall u, u ∈ l -> u ∈ take (Z.to_nat i) l.
(** The maximal runs of cells of a same type. *)
Definition cut_by_type (cells : list cell) (parts : list (list cell)) : Prop :=
  concat parts = cells /\ (forall p, p ∈ parts -> p <> [] /\ exists t, forall c, c ∈ p -> c.1 = t) /\
  forall i p q c d, parts @ i = Some p -> parts @ (i + 1) = Some q -> c ∈ p -> d ∈ q -> c.1 <> d.1.
(** The numbers of cells type by type in the format of getDistributionOfTypes. *)
Definition distribution (l : list Z) : list Z := concat ((fun t => [t; number l t; -1]) <$> firsts l).

(** The rank in the mesh of the cells of type [t] known by their ranks among the cells of type [t]. *)
Definition nth_of_type (l : list Z) (t : Z) (ids : list Z) : list Z := omap (fun v => ranks_of l t @ v) ids.
(** All the cells, except that those of type [t] are only the [ids]-th ones. *)
Definition kept (l : list Z) (t : Z) (ids : list Z) : list Z := concat ((fun u => if u =? t then nth_of_type l u ids else ranks_of l u) <$> firsts l).
(** The entries of a profile that are cells of type [t]; the ranks of these cells among those of type [t]; the types met in the profile. *)
Definition entries (l pfl : list Z) (t : Z) : list Z := List.filter (fun j => match pfl @ j with Some v => bool_decide (l @ v = Some t) | None => false end) (seqZ 0 (zlen pfl)).
Definition locals (l pfl : list Z) (t : Z) : list Z := omap (fun j => rank_among l t <$> pfl @ j) (entries l pfl t).
Definition present (l pfl : list Z) : list Z := List.filter (fun t => negb (zlen (entries l pfl t) =? 0)) (firsts l).
(** The code that describes the profile and the profiles type by type, from profile number [k] on;
    [smart]: a type whose cells are all there and in order needs no profile. *)
Fixpoint pieces (l pfl : list Z) (smart : bool) (k : Z) (ts : list Z) : list Z * list (list Z) :=
  match ts with
  | [] => ([], [])
  | t :: r =>
    if smart && bool_decide (locals l pfl t = seqZ 0 (number l t))
    then let q := pieces l pfl smart k r in (t :: zlen (entries l pfl t) :: -1 :: q.1, q.2)
    else let q := pieces l pfl smart (k + 1) r in (t :: zlen (entries l pfl t) :: k :: q.1, locals l pfl t :: q.2)
  end.
(** [code] and the profiles [profs] describe, type by type, the [ids]-th cells of type [t] for each [(t, ids)] of [parts]:
    three numbers for each type, that are the type, the number of cells and the rank of the profile, -1 for all the cells of the type. *)
Definition describes (l code : list Z) (profs : list (option (list Z))) (parts : list (Z * list Z)) : Prop :=
  zlen code = 3 * zlen parts /\
  forall k t ids, parts @ k = Some (t, ids) -> code @ (3 * k) = Some t /\ code @ (3 * k + 1) = Some (zlen ids) /\ t ∈ l /\
    exists id, code @ (3 * k + 2) = Some id /\
      (id = -1 /\ ids = seqZ 0 (number l t) \/ 0 <= id /\ profs @ id = Some (Some ids) /\ forall v, v ∈ ids -> 0 <= v < number l t).
(** The ranks in the mesh of the cells described. *)
Definition described (l : list Z) (parts : list (Z * list Z)) : list Z := concat ((fun p => nth_of_type l p.1 p.2) <$> parts).
(** A profile that cannot be used for the type [t]: it does not exist, or holds a rank that is not that of a cell of type [t]. *)
Definition bad_profile (l : list Z) (profs : list (option (list Z))) (t id : Z) : Prop :=
  id <> -1 /\ (id < 0 \/ zlen profs <= id \/ profs @ id = Some None \/ exists ids v, profs @ id = Some (Some ids) /\ v ∈ ids /\ ~ 0 <= v < number l t).
