(** Vocabulary of the merges of meshes with a single geometric type. *)
From Coq Require Import QArith.
From stdpp Require Import gmap.
From Verif Require Import CellModel Base DataArray IndexSpec CellTable GlModel UmModel UmSpec MgSpec GtModel GtSpec.
Local Open Scope Z_scope.

(** The nodes alone. *)
Definition nodes_only (d : option (da Q)) : umesh := UM 0 d None None [].
(** What a mesh of the type of model [k] brings to a merge: its cells and its number of nodes;
    a mesh without connectivity has no cell, a mesh without coordinates has no node. *)
Definition s_brings (k : cm) (sd : Z) (m : sgt) (p : list cell * Z) : Prop :=
  sg_cm m = k /\ (s_holds m p.1 \/ sg_conn m = None /\ p.1 = []) /\ (nodes_in (nodes_only (sg_coords m)) sd p.2 \/ sg_coords m = None /\ p.2 = 0).
Definition d_brings (k : cm) (sd : Z) (m : dgt) (p : list cell * Z) : Prop :=
  dg_cm m = k /\ (d_holds m p.1 \/ dg_conn m = None /\ dg_connI m = None /\ p.1 = []) /\ (nodes_in (nodes_only (dg_coords m)) sd p.2 \/ dg_coords m = None /\ p.2 = 0).
(** No negative number in the cells. *)
Definition no_negative (cs : list cell) : Prop := forall c v, c ∈ cs -> v ∈ c.2 -> 0 <= v.
(** The parts of a line follow each other, the first one starting at [v]: each one starts where the previous one ends. *)
Fixpoint follow (v : Z) (qs : list (list Z)) : Prop :=
  match qs with [] => True | q :: r => exists w, head q = Some v /\ last q = Some w /\ follow w r end.
(** The nodes of the line: the common ends once, and the end of the line left out when it is its start. *)
Definition line_of (p : list Z) (qs : list (list Z)) : list Z :=
  let l := p ++ concat ((fun q => drop 1 q) <$> qs) in if decide (last l = head l) then take (length l - 1) l else l.
