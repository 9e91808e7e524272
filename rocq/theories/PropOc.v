(** C101: the order of the cells of a line. *)
From Coq Require Import QArith.
From Verif Require Import Base DataArray CellModel CellTable UmModel UmSpec UcProofs6 DsModel DsSpec OcModel OcSpec OcProofs2 OcExamples.
Local Open Scope Z_scope.

(** The result has every cell once.  It is made of parts, each one with the cells in a row; a cell of a part touches no cell of another one. *)
Theorem C101_order m cells nb : stores m cells -> has_nodes m nb -> um_dim m = 1 -> Forall (proper 1 nb) cells -> is_line cells ->
  exists parts, orderConsecutiveCells1D m = Ok (concat parts) /\ concat parts ≡ₚ seqZ 0 (zlen cells) /\ (forall l, l ∈ parts -> l <> [] /\ consecutive cells l) /\
    forall l i j, l ∈ parts -> i ∈ l -> touch cells i j -> j ∈ l.
Proof. exact (order_ok m cells nb). Qed.
Print Assumptions C101_order.
Example C101_order_lines : stores (mk 1 10 lines) lines /\ has_nodes (mk 1 10 lines) 10 /\ Forall (proper 1 10) lines /\ is_line lines /\ orderConsecutiveCells1D (mk 1 10 lines) = Ok [0; 4; 2; 3; 5; 1; 6].
Proof. destruct (mk_ok 1 10 lines ltac:(lia)) as (H1 & _ & H2). split; [done|]. split; [done|]. split; [apply lines_ok|]. split; [apply lines_ok|]. vm_compute. reflexivity. Qed.

(** All in one part, the cells of the result are in a row. *)
Theorem C101_connected m cells nb : stores m cells -> has_nodes m nb -> um_dim m = 1 -> Forall (proper 1 nb) cells -> is_line cells -> connected cells ->
  exists l, orderConsecutiveCells1D m = Ok l /\ l ≡ₚ seqZ 0 (zlen cells) /\ consecutive cells l.
Proof. exact (connected_ok m cells nb). Qed.
Print Assumptions C101_connected.
Example C101_connected_line : Forall (proper 1 6) line4 /\ is_line line4 /\ connected line4 /\ orderConsecutiveCells1D (mk 1 6 line4) = Ok [1; 3; 0; 2].
Proof. destruct line4_ok as (H1 & H2 & H3). split; [done|]. split; [done|]. split; [done|]. vm_compute. reflexivity. Qed.

(** A node in three cells is refused. *)
Theorem C101_branch m cells nb n i j k (ci cj ck : cell) : stores m cells -> has_nodes m nb -> um_dim m = 1 -> Forall (proper 1 nb) cells ->
  cells @ i = Some ci -> cells @ j = Some cj -> cells @ k = Some ck -> n ∈ ci.2 -> n ∈ cj.2 -> n ∈ ck.2 -> i <> j -> j <> k -> i <> k -> orderConsecutiveCells1D m = Throw.
Proof. exact (branch_ok m cells nb n i j k ci cj ck). Qed.
Print Assumptions C101_branch.
Example C101_branch_star : Forall (proper 1 4) star /\ orderConsecutiveCells1D (mk 1 4 star) = Throw.
Proof. split; [apply properb_ok; vm_compute; done|]. vm_compute. reflexivity. Qed.

(** And so is a mesh of another dimension. *)
Theorem C101_dimension m : um_dim m <> 1 -> orderConsecutiveCells1D m = Throw.
Proof. exact (dimension_ok m). Qed.
Print Assumptions C101_dimension.
Example C101_dimension_0 : orderConsecutiveCells1D (mk 0 4 []) = Throw. Proof. vm_compute. reflexivity. Qed.

(** No node in three cells is not enough: with a cell that starts from the middle of a quadratic one, a cell is written twice, and the values go
    past the end of the array. *)
Theorem C101_middle_refuted : ~ forall m cells nb, stores m cells -> has_nodes m nb -> um_dim m = 1 -> Forall (proper 1 nb) cells ->
  (forall n i j k (ci cj ck : cell), cells @ i = Some ci -> cells @ j = Some cj -> cells @ k = Some ck -> n ∈ ci.2 -> n ∈ cj.2 -> n ∈ ck.2 -> i = j \/ j = k \/ i = k) ->
  orderConsecutiveCells1D m <> UB.
Proof. exact tee_bad. Qed.
Print Assumptions C101_middle_refuted.
