(** Square matrices stored by rows. *)
From Coq Require Import QArith Qcanon.
From Verif Require Import Base RemapSpec.
Local Open Scope Z_scope.

(** The matrix with [r] rows and [c] columns in a list of values. *)
Definition by_rows (r c : Z) (l : list Qc) (M : Z -> Z -> Qc) : Prop := zlen l = r * c /\ forall i j, 0 <= i < r -> 0 <= j < c -> l @ (i * c + j) = Some (M i j).
Definition unit_mat (i j : Z) : Qc := if i =? j then 1%Qc else 0%Qc.
(** [C] is the product of [A] (r rows, n columns) and [B] (n rows, c columns). *)
Definition is_product (r n c : Z) (A B C : Z -> Z -> Qc) : Prop := forall i j, 0 <= i < r -> 0 <= j < c -> C i j = sumZ n (fun k => A i k * B k j)%Qc.
Definition inverse (n : Z) (A B : Z -> Z -> Qc) : Prop := is_product n n n A B unit_mat /\ is_product n n n B A unit_mat.
