(** Vocabulary of fields. *)
From Coq Require Import QArith Qabs.
From Verif Require Import Base DataArray IndexSpec RenumSpec CellTable UmModel UmSpec GlModel GlSpec FdModel.
Local Open Scope Z_scope.

(** The discretization gives to the cell number [i] the number [ns i] of values: one, one per Gauss point of its localization, one per node. *)
Definition sizes (d : disc) (cells : list cell) (ns : list Z) : Prop :=
  match d with
  | P0 => ns = (fun _ => 1) <$> cells
  | P1 => False
  | GaussPt g => exists dpc, gd_dpc g = Some dpc /\ zlen dpc = zlen cells /\ Forall2 (fun id n => exists l, gd_loc g @ id = Some l /\ n = zlen (gl_w l)) dpc ns
  | GaussNE => Forall2 (fun (c : cell) n => exists k, GetCellModel c.1 = Ok k /\ cm_dyn k = false /\ n = cm_nbpts k) cells ns
  end.
(** The values of the cells follow each other in the array: the [k]-th value of the cell [c], component [j]. *)
Definition value {A} (a : da A) (ns : list Z) (c k j : Z) : option A := ij a (zsum (take (Z.to_nat c) ns) + k) j.
(** An array with one tuple for each value. *)
Definition sized {A} (a : da A) (total : Z) : Prop := da_alloc a = true /\ da_wf a /\ 0 < da_nc a /\ da_nt a = total.
(** A field on these cells, with these numbers of values. *)
Definition carries {A} (f : field A) (cells : list cell) (ns : list Z) : Prop :=
  stores (fd_mesh f) cells /\ sizes (fd_disc f) cells ns /\ forall a, Some a ∈ fd_arrs f -> sized a (zsum ns).
(** The localization of the Gauss points of a cell, for the fields that have them. *)
Definition locAt (d : disc) (c : Z) : option gloc := match d with GaussPt g => loc_of g c | _ => None end.
(** The cell [c'] of the second field is the cell [c] of the first one: same nodes, same localization of its values, same values in each array. *)
Definition same_cell {A} (f : field A) (cells : list cell) (ns : list Z) (c : Z) (f' : field A) (cells' : list cell) (ns' : list Z) (c' : Z) : Prop :=
  is_Some (cells @ c) /\ cells' @ c' = cells @ c /\ ns' @ c' = ns @ c /\ locAt (fd_disc f') c' = locAt (fd_disc f) c /\
  Forall2 (fun a a' =>
    match a, a' with
    | None, None => True
    | Some a, Some a' => da_nc a' = da_nc a /\ forall n k j, ns @ c = Some n -> 0 <= k < n -> value a' ns' c' k j = value a ns c k j
    | _, _ => False
    end) (fd_arrs f) (fd_arrs f').
(** The field is of the same kind. *)
Definition same_kind (d d' : disc) : Prop :=
  match d, d' with P0, P0 | P1, P1 | GaussNE, GaussNE => True | GaussPt g, GaussPt g' => gd_loc g' = gd_loc g | _, _ => False end.
(** [p] gives the ranks of the values of [l]. *)
Definition ranks (l p : list Z) : Prop :=
  is_perm (zlen l) p /\ forall i j a b s t, l @ i = Some a -> l @ j = Some b -> p @ i = Some s -> p @ j = Some t -> (a < b <-> s < t).

(** What checkCoherencyBetween accepts: the number [nt] of tuples suits the cells and the [nodes] of the mesh. *)
Definition suits (d : disc) (cells : list cell) (nodes nt : Z) : Prop :=
  match d with
  | P1 => nt = nodes
  | GaussPt g =>
    exists ns, sizes d cells ns /\ nt = zsum ns /\ (forall l, l ∈ gd_loc g -> fits (gl_type l) (gl_ref l) (gl_gauss l) (gl_w l)) /\
    forall i (c : cell) l, cells @ i = Some c -> loc_of g i = Some l -> gl_type l = c.1
  | _ => exists ns, sizes d cells ns /\ nt = zsum ns
  end.

(** A code: for each type the triple (type, number of entities, -1 or the place of the profile in a list). *)
Definition code_of (trs : list (Z * Z * Z)) : list Z := concat ((fun '(t, n, pos) => [t; n; pos]) <$> trs).
(** The profile [ids] selects [n] entities. *)
Definition profile (ids : da Z) (n : Z) : Prop :=
  da_alloc ids = true /\ da_nc ids = 1 /\ zlen (da_vals ids) = n /\ 0 < n /\ forall v, v ∈ da_vals ids -> 0 <= v.
Definition good_triple (pfls : list (option (da Z))) (tr : Z * Z * Z) : Prop :=
  let '(_, n, pos) := tr in 0 <= n /\ (pos = -1 \/ exists ids, pfls @ pos = Some (Some ids) /\ profile ids n).

(** The node [n'] of the second mesh is the node [n] of the first one: same coordinates. *)
Definition coord (m : umesh) (n j : Z) : option Q := match um_coords m with Some c => ij c n j | None => None end.
(** The number of values of one entity of type [t], as far as the type tells. *)
Definition per_entity (d : disc) (t v : Z) : Prop :=
  match d with P0 | P1 => v = 1 | GaussPt _ => False | GaussNE => exists k, GetCellModel t = Ok k /\ cm_dyn k = false /\ v = cm_nbpts k end.
(** A cell with as many nodes as its type wants. *)
Definition whole (c : cell) : Prop := forall k, GetCellModel c.1 = Ok k -> cm_dyn k = false -> zlen c.2 = cm_nbpts k.
(** Two tuples of an array are close: the components differ by [eps] at most. *)
Definition close {A} (dist : A -> A -> bool) (a : da A) (i i' : Z) : Prop := forall j x y, ij a i j = Some x -> ij a i' j = Some y -> dist x y = true.
Definition nearQ (eps x y : Q) : bool := Qle_bool (Qabs (y - x)) eps.
(** Entities with the same new number have close values. *)
Definition agree (eps : Q) (p : list Z) (a : da Q) : Prop := forall i i' n, 0 <= n -> first_pos p n i -> p @ i' = Some n -> i < i' -> close (nearQ eps) a i i'.
(** No tuple is made of the mark [big] of the entities without value only. *)
Definition unmarked (big : Q) (a : da Q) : Prop := forall i, 0 <= i < da_nt a -> exists j x, ij a i j = Some x /\ ~ (x == big)%Q.
(** A field on the [nb] nodes of a mesh with these cells. *)
Definition on_nodes {A} (f : field A) (cells : list cell) (nb : Z) : Prop :=
  fd_disc f = P1 /\ stores (fd_mesh f) cells /\ (exists d, um_coords (fd_mesh f) = Some d /\ sized d nb) /\ (forall n, used cells n -> n < nb) /\ forall a, Some a ∈ fd_arrs f -> sized a nb.
(** The node [n'] of the second field has the values of the node [n] of the first one. *)
Definition same_values {A} (f : field A) (n : Z) (f' : field A) (n' : Z) : Prop :=
  Forall2 (fun a a' => match a, a' with None, None => True | Some a, Some a' => da_nc a' = da_nc a /\ forall j, ij a' n' j = ij a n j | _, _ => False end) (fd_arrs f) (fd_arrs f').
(** The second field is the part of the first one on these cells: the nodes they use are kept in the same order, with their coordinates and values. *)
Definition node_part {A} (f : field A) (sel : list cell) (f' : field A) : Prop :=
  exists tr k, on_nodes f' (rename (ren tr) <$> sel) k /\ typed (fd_mesh f') (rename (ren tr) <$> sel) /\ um_dim (fd_mesh f') = um_dim (fd_mesh f) /\
    (forall t, 0 <= t < k <-> used (rename (ren tr) <$> sel) t) /\
    forall n, used sel n -> exists t, tr @ n = Some t /\ rank_in sel n t /\ (forall q, point (fd_mesh f) n q -> point (fd_mesh f') t q) /\ same_values f n f' t.
