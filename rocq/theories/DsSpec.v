(** Vocabulary of the descending connectivity. *)
From Verif Require Import Base DataArray StdModel IndexSpec RenumSpec PartSpec CellTable CellModel CellSpec UmModel UmSpec UcSpec DsModel.

(** [fs] are the sons that the generator gives for cell [c], in order; each one fits in the buffer made for the cell. *)
Definition sons (g : gen) (c : cell) (fs : list cell) : Prop :=
  exists k, GetCellModel c.1 = Ok k /\ g_nb g k c.2 = Ok (zlen fs) /\ (forall i f, fs @ i = Some f -> g_fill g k i c.2 = Ok f /\ zlen f.2 <= 1 + zlen c.2).
(** A son of dimension [dim] that insertNextCell takes, on [nb] nodes, with a node that it has only once. *)
Definition good_son (dim nb : Z) (f : cell) : Prop :=
  insertable dim f /\ (forall n, n ∈ f.2 -> 0 <= n < nb) /\ exists n, count_occ Z.eq_dec f.2 n = 1%nat.
(** What a descending connectivity is: [new] are the different sons of the cells, each one as it appears first, in the order of their first appearance;
    [dss] gives the sons of each cell by their rank in [new]. *)
Definition descends (fss : list (list cell)) (new : list cell) (dss : list (list Z)) : Prop :=
  Forall2 (Forall2 (fun f d => exists f', new @ d = Some f' /\ same_nodes f'.2 f.2)) fss dss /\
  (forall t u f f', new @ t = Some f -> new @ u = Some f' -> same_nodes f.2 f'.2 -> t = u) /\
  (forall t f, new @ t = Some f -> exists i, first_pos (concat dss) t i /\ concat fss @ i = Some f) /\
  ordered_by_first (concat dss).
(** The cells that have son [t], in ascending order, one as many times as it has the son. *)
Fixpoint owners (k : Z) (dss : list (list Z)) (t : Z) : list Z :=
  match dss with [] => [] | ds :: r => replicate (count_occ Z.eq_dec ds t) k ++ owners (k + 1) r t end.
(** Sons with the same nodes are the same one turned, or the same one the other way and turned. *)
Definition coherent (fs : list cell) : Prop := forall f f', f ∈ fs -> f' ∈ fs -> same_nodes f.2 f'.2 -> rotation f.2 f'.2 \/ rotation (rev f.2) f'.2.
(** A son seen the way of the first one: turned in dimension 2, the same list in dimension 1. *)
Definition same_way (dim : Z) (f f' : cell) : Prop := if dim =? 2 then rotation f.2 f'.2 else f.2 = f'.2.
(** What buildDescendingConnectivity2 writes for a son of rank [d]: [d + 1], or its opposite when the cell sees it the other way. *)
Definition oriented (dim : Z) (new : list cell) (f : cell) (e : Z) : Prop :=
  e <> 0 /\ forall f', new @ (Z.abs e - 1) = Some f' -> 0 < e <-> same_way dim f' f.
Definition ranks (ess : list (list Z)) : list (list Z) := (fun es : list Z => (fun e => Z.abs e - 1) <$> es) <$> ess.
(** The other cells with a given son, in ascending order. *)
Definition across (fss : list (list cell)) (i : Z) (f : cell) (l : list Z) : Prop :=
  ascending l /\ forall j, j ∈ l <-> j <> i /\ exists fs f', fss @ j = Some fs /\ f' ∈ fs /\ same_nodes f.2 f'.2.
(** The sons that no other son equals, in order. *)
Definition alone (fs : list cell) (i : Z) : Prop := exists f, fs @ i = Some f /\ forall j f', fs @ j = Some f' -> same_nodes f.2 f'.2 -> j = i.
Definition skin_of (fs skin : list cell) : Prop := exists ids, ascending ids /\ (forall i, i ∈ ids <-> alone fs i) /\ picked fs ids skin.
(** A cell of dimension [dim] on [nb] nodes without a node twice (in a face, for a polyhedron); the polylines have no sons. *)
Definition proper (dim nb : Z) (c : cell) : Prop :=
  exists k, GetCellModel c.1 = Ok k /\ cm_dim k = dim /\ c.1 <> NORM_POLYL /\ (cm_dyn k = false -> zlen c.2 = cm_nbpts k) /\
    if c.1 =? NORM_POLYHED then exists faces, c.2 = polyhedron faces /\ faces <> [] /\ forall f, f ∈ faces -> 2 <= zlen f /\ NoDup f /\ forall n, n ∈ f -> 0 <= n < nb
    else NoDup c.2 /\ (forall n, n ∈ c.2 -> 0 <= n < nb) /\ (c.1 = NORM_POLYGON -> 2 <= zlen c.2) /\ (c.1 = NORM_QPOLYG -> 4 <= zlen c.2).
(** The halves of a quadratic edge. *)
Definition halves (f : cell) : list cell := match f.2 with [a; b; m] => [(NORM_SEG2, [a; m]); (NORM_SEG2, [m; b])] | _ => [] end.
