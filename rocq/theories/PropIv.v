(** C102: the product and the inverse of matrices. *)
From Coq Require Import QArith Qcanon.
From Verif Require Import Base ArrLib RemapSpec IvModel IvSpec IvProofs6 IvExamples.
Local Open Scope Z_scope.

(** A matrix that has an inverse: the result is this inverse. *)
Theorem C102_inverse n A MA MB : 0 < n -> by_rows n n A MA -> inverse n MA MB -> exists l, inverseMatrix A n = Ok l /\ by_rows n n l MB.
Proof. exact (inverse_ok n A MA MB). Qed.
Print Assumptions C102_inverse.
Example C102_inverse_3 : by_rows 3 3 m3 (mat_of 3 m3) /\ inverse 3 (mat_of 3 m3) (mat_of 3 i3) /\ match inverseMatrix m3 3 with Ok l => eq_list l i3 | _ => false end = true.
Proof. destruct m3_ok as (H1 & H2 & H3). split; [done|]. split; [done|]. vm_compute. reflexivity. Qed.

(** A result is always the inverse, on both sides. *)
Theorem C102_only_inverse n A MA l : 0 < n -> by_rows n n A MA -> inverseMatrix A n = Ok l -> exists MB, by_rows n n l MB /\ inverse n MA MB.
Proof. exact (only_inverse n A MA l). Qed.
Print Assumptions C102_only_inverse.
Example C102_only_inverse_3 : by_rows 3 3 m3 (mat_of 3 m3) /\ match inverseMatrix m3 3 with Ok _ => true | _ => false end = true.
Proof. split; [apply m3_ok|]. vm_compute. reflexivity. Qed.

(** A matrix without inverse should be refused.  It is not: there is no exception, but a division by zero. *)
Theorem C102_singular_refuted n A MA : 0 < n -> by_rows n n A MA -> ~ (exists MB, inverse n MA MB) -> inverseMatrix A n = UB.
Proof. exact (singular_ub n A MA). Qed.
Print Assumptions C102_singular_refuted.
Example C102_singular_refuted_2 : by_rows 2 2 s2 (mat_of 2 s2) /\ (~ exists MB, inverse 2 (mat_of 2 s2) MB) /\ inverseMatrix s2 2 = UB.
Proof. destruct s2_ok as (H1 & H2). split; [done|]. split; [done|]. vm_compute. reflexivity. Qed.

(** With no row, a value is written before the array of the pivots. *)
Theorem C102_empty_refuted : inverseMatrix [] 0 = UB.
Proof. exact eq_refl. Qed.
Print Assumptions C102_empty_refuted.

(** The product. *)
Theorem C102_product n1 p p2 A B MA MB : 0 <= n1 -> 0 <= p -> 0 <= p2 -> by_rows n1 p A MA -> by_rows p p2 B MB ->
  exists l MC, matrixProduct A n1 p B p p2 = Ok (Some <$> l) /\ by_rows n1 p2 l MC /\ is_product n1 p p2 MA MB MC.
Proof. exact (product_ok n1 p p2 A B MA MB). Qed.
Print Assumptions C102_product.
Example C102_product_23 : by_rows 2 3 m23 (mat_of 3 m23) /\ by_rows 3 2 m32 (mat_of 2 m32) /\
  match matrixProduct m23 2 3 m32 3 2 with Ok l => eq_list (omap id l) (q [8; -2; 20; -2]) && (zlen l =? 4) | _ => false end = true.
Proof. split; [by apply mat_of_ok|]. split; [by apply mat_of_ok|]. vm_compute. reflexivity. Qed.

Theorem C102_product_sizes n1 p1 n2 p2 A B : p1 <> n2 -> matrixProduct A n1 p1 B n2 p2 = Throw.
Proof. exact (product_sizes n1 p1 n2 p2 A B). Qed.
Print Assumptions C102_product_sizes.
Example C102_product_sizes_22 : (3 : Z) <> 2 /\ matrixProduct m23 2 3 m32 2 3 = Throw.
Proof. split; [lia|]. reflexivity. Qed.
