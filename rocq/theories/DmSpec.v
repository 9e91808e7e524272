(** What a matrix stands for. *)
From Coq Require Import QArith Qcanon.
From Verif Require Import Base DataArray RemapSpec IvSpec DmModel.
Local Open Scope Z_scope.

(** The array [p] exists, is allocated, has one component and holds [l]. *)
Definition is_array (h : heap) (p : Z) (l : list Qc) : Prop := h @ p = Some (DA true 1 l).
(** [m] is the matrix [M] with [r] rows and [c] columns, stored by rows in its array. *)
Definition denotes (h : heap) (m : dm) (r c : Z) (M : Z -> Z -> Qc) : Prop :=
  0 <= r /\ 0 <= c /\ dm_rows m = r /\ dm_cols m = c /\ exists l, is_array h (dm_data m) l /\ by_rows r c l M.
(** Nothing changes in the arrays of [h]. *)
Definition kept (h h' : heap) : Prop := forall p a, h @ p = Some a -> h' @ p = Some a.
(** Nothing changes but in the array [q]. *)
Definition kept_but (q : Z) (h h' : heap) : Prop := zlen h' = zlen h /\ forall p, p <> q -> h' @ p = h @ p.
(** Every matrix of a session stands for a matrix: its array has the right number of values. *)
Definition sound (s : session) : Prop := forall m, m ∈ snd s -> exists M, denotes (fst s) m (dm_rows m) (dm_cols m) M.
(** A result is the matrix [M] in a new array; the other arrays are as before. *)
Definition fresh (h : heap) (x : heap * dm) (r c : Z) (M : Z -> Z -> Qc) : Prop := denotes (fst x) (snd x) r c M /\ dm_data (snd x) = zlen h /\ kept h (fst x).
(** The entries of two matrices put together. *)
Definition comb (f : Qc -> Qc -> Qc) (M N : Z -> Z -> Qc) : Z -> Z -> Qc := fun i j => f (M i j) (N i j).
(** The values of the product of a matrix and a vector. *)
Definition image (r n : Z) (M : Z -> Z -> Qc) (v l : list Qc) : Prop := zlen l = r /\ forall i, 0 <= i < r -> l @ i = Some (sumZ n (fun k => M i k * default 0%Qc (v @ k))%Qc).
