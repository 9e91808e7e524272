(** Vocabulary of the merges of meshes. *)
From Coq Require Import QArith.
From Verif Require Import Base DataArray IndexSpec RenumSpec UmModel UmSpec TyModel TySpec.
Local Open Scope Z_scope.

(** The mesh has coordinates of dimension [sd] for [nb] nodes. *)
Definition nodes_in (m : umesh) (sd nb : Z) : Prop := exists d, um_coords m = Some d /\ da_alloc d = true /\ da_wf d /\ da_nc d = sd /\ da_nt d = nb.
(** What a mesh brings to a merge: its cells and its number of nodes; a mesh without connectivity has no cell, a mesh without coordinates has no node. *)
Definition brings (m : umesh) (sd : Z) (cs : list cell) (nb : Z) : Prop :=
  (stores m cs \/ um_conn m = None /\ um_connI m = None /\ cs = []) /\ (nodes_in m sd nb \/ um_coords m = None /\ nb = 0).
(** -1 is the only negative number in the cells. *)
Definition separators (cs : list cell) : Prop := forall c v, c ∈ cs -> v ∈ c.2 -> -1 <= v.
(** The number of the nodes of the meshes before mesh [i]. *)
Definition nodes_before (info : list (list cell * Z)) (i : Z) : Z := zsum (take (Z.to_nat i) (snd <$> info)).
(** The cells of the meshes one after the other, on the nodes of the meshes one after the other: [o] is the number of the first node. *)
Fixpoint side_by_side (o : Z) (info : list (list cell * Z)) : list cell :=
  match info with [] => [] | (cs, nb) :: r => (rename (fun n => n + o) <$> cs) ++ side_by_side (o + nb) r end.
(** The runs of cells of a same type of the meshes, each one with the rank of its mesh. *)
Definition runs_of (css : list (list cell)) (runs : list (Z * list cell)) : Prop :=
  exists partss, Forall2 cut_by_type css partss /\ runs = concat (imap (fun i parts => (fun p => (Z.of_nat i, p)) <$> parts) partss).
(** The type of the cells of a run. *)
Definition run_type (r : Z * list cell) (t : Z) : Prop := exists c, c ∈ r.2 /\ c.1 = t.
(** The runs moved, those of a same type keeping their order. *)
Definition moved_runs (runs sel : list (Z * list cell)) : Prop :=
  exists o2n, is_perm (zlen runs) o2n /\ (forall i t, o2n @ i = Some t -> sel @ t = runs @ i) /\ zlen sel = zlen runs /\
    forall i j a b t p q, i < j -> runs @ i = Some a -> runs @ j = Some b -> run_type a t -> run_type b t -> o2n @ i = Some p -> o2n @ j = Some q -> p < q.
