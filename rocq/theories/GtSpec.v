(** Vocabulary of the meshes with a single geometric type. *)
From Coq Require Import QArith.
From stdpp Require Import gmap.
From Verif Require Import CellModel Base DataArray IndexSpec CellTable GlModel UmModel UmSpec MgSpec GtModel.
Local Open Scope Z_scope.

(** A mesh of a static type holds these cells: the nodes of the cells one after the other. *)
Definition s_holds (m : sgt) (cells : list cell) : Prop :=
  GetCellModel (cm_type (sg_cm m)) = Ok (sg_cm m) /\ cm_dyn (sg_cm m) = false /\
  (forall c, c ∈ cells -> c.1 = cm_type (sg_cm m) /\ zlen c.2 = cm_nbpts (sg_cm m)) /\
  sg_conn m = Some (concat (snd <$> cells)).
(** A mesh of a dynamic type holds these cells: cell [i] is the part of the connectivity between the values [i] and [i+1] of the index.
    The index may start after the beginning of the connectivity and end before its end. *)
Definition d_holds (m : dgt) (cells : list cell) : Prop :=
  GetCellModel (cm_type (dg_cm m)) = Ok (dg_cm m) /\ cm_dyn (dg_cm m) = true /\
  (forall c, c ∈ cells -> c.1 = cm_type (dg_cm m)) /\
  exists conn connI f, dg_conn m = Some conn /\ dg_connI m = Some connI /\ zlen connI = zlen cells + 1 /\
    (forall i c, cells @ i = Some c -> pack conn connI i c.2) /\
    connI @ 0 = Some f /\ 0 <= f <= zlen conn /\ (0 < zlen conn -> f < zlen conn).
(** ... and it holds nothing else. *)
Definition d_packed (m : dgt) (cells : list cell) : Prop :=
  GetCellModel (cm_type (dg_cm m)) = Ok (dg_cm m) /\ cm_dyn (dg_cm m) = true /\
  (forall c, c ∈ cells -> c.1 = cm_type (dg_cm m)) /\
  exists conn connI, dg_conn m = Some conn /\ dg_connI m = Some connI /\ skyline (snd <$> cells) conn connI.
(** Either of the two. *)
Definition g_holds (g : sgt + dgt) (cells : list cell) : Prop := match g with inl s => s_holds s cells | inr d => d_packed d cells end.
(** All the cells are of type [t], with the number of nodes of this type when it is static. *)
Definition all_of (t : Z) (k : cm) (cells : list cell) : Prop :=
  GetCellModel t = Ok k /\ cells <> [] /\ forall c, c ∈ cells -> c.1 = t /\ (cm_dyn k = false -> zlen c.2 = cm_nbpts k).
(** The coordinates hold [nb] nodes. *)
Definition coords_of (d : option (da Q)) (nb : Z) : Prop := exists a, d = Some a /\ da_alloc a = true /\ da_wf a /\ da_nt a = nb.
(** All the nodes of the cells are nodes of the mesh. *)
Definition within (nb : Z) (cells : list cell) : Prop := forall c v, c ∈ cells -> v ∈ c.2 -> 0 <= v < nb.
(** The same, -1 being a separator. *)
Definition within_sep (nb : Z) (cells : list cell) : Prop := forall c v, c ∈ cells -> v ∈ c.2 -> v = -1 \/ 0 <= v < nb.
(** The array old to new of the nodes in use (-1 for the others) and their number. *)
Definition in_use (cells : list cell) (nb : Z) (r : list Z * Z) : Prop :=
  zlen r.1 = nb /\ rank_in cells nb r.2 /\
    forall n, 0 <= n < nb -> (used cells n -> exists k, rank_in cells n k /\ r.1 @ n = Some k) /\ (~ used cells n -> r.1 @ n = Some (-1)).
(** The nodes of a polyhedron from the nodes of its faces: -1 between two faces. *)
Definition with_separators (faces : list (list Z)) : list Z := match faces with [] => [] | f :: r => f ++ concat ((fun g : list Z => -1 :: g) <$> r) end.
(** The numbering given by a map. *)
Definition mren (p : gmap Z Z) (v : Z) : Z := default (-1) (p !! v).
