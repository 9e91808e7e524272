(** C92: redistribution of packs; C93: complement of distributed ids; C94: redistribution of a field on cells. *)
From Verif Require Import Base SearchSpec SkyModel SkySpec DecModel ParModel ParSpec ParExamples ParProofs3 ParProofs5.

(** After the call the process [r] has the ids of its slice that some process had; the pack of an id is the union of its packs; an id is on one process. *)
Theorem C92_redistribute world packs nb : 0 < zlen world -> 0 <= nb -> has_packs world packs ->
  exists out, equiRedistribute world nb = Ok out /\ zlen out = zlen world /\
    (forall r gids s, out @ r = Some (gids, s) -> enumerates (fun x => in_slice (zlen world) nb r x /\ held world x) gids /\
       exists qs, sky2 qs s /\ zlen qs = zlen gids /\ forall k x q, gids @ k = Some x -> qs @ k = Some q -> enumerates (in_pack world packs x) q) /\
    (forall x, 0 <= x < nb -> held world x -> exists! r, exists gids s, out @ r = Some (gids, s) /\ x ∈ gids).
Proof. exact (equi_full world packs nb). Qed.
Print Assumptions C92_redistribute.
Example C92_redistribute_some : has_packs exWorld exPacks /\ held exWorld 3 /\ equiRedistribute exWorld 7 = Ok [([0; 1], Sky [] [0; 2; 3] [7; 8; 6]); ([3], Sky [] [0; 2] [3; 4]); ([5], Sky [] [0; 1] [9])].
Proof. exact equi_some. Qed.

(** The process 0 gets the ids of [0, nb) that no process has. *)
Theorem C93_complement world nb : 0 < zlen world -> 0 <= nb -> exists c, paraComplement world nb = Ok c /\ enumerates (fun x => 0 <= x < nb /\ forall p ids, world @ p = Some ids -> x ∉ ids) c.
Proof. exact (complement_all world nb). Qed.
Print Assumptions C93_complement.
Example C93_complement_some : paraComplement [[5; 0; 3]; [3; 1]; []] 7 = Ok [2; 4; 6].
Proof. exact complement_some. Qed.

(** The process that asks for the cells [a] gets, in increasing order of id, one value for each cell that it asks for and that some process has: a value of this cell. *)
Theorem C94_cell_field {A} (world : list (list Z * list A)) asked : 0 < zlen world -> zlen asked = zlen world -> (forall p ids f, world @ p = Some (ids, f) -> zlen ids = zlen f) ->
  exists out, redistributeCellField world asked = Ok out /\ zlen out = zlen world /\ forall r o a, out @ r = Some o -> asked @ r = Some a ->
    exists u, enumerates (fun x => x ∈ a /\ held world x) u /\ Forall2 (value_on world) u o.
Proof. exact (cellField_ok world asked). Qed.
Print Assumptions C94_cell_field.
Example C94_cell_field_some : (forall p ids f, exField @ p = Some (ids, f) -> zlen ids = zlen f) /\ redistributeCellField exField [[0; 3; 1]; [5; 3]] = Ok [[0; 10; 30]; [30; 50]].
Proof. exact field_some. Qed.
(** A field that has not one value per cell is refused. *)
Theorem C94_sizes_refused {A} (world : list (list Z * list A)) asked p ids f : zlen asked = zlen world -> world @ p = Some (ids, f) -> zlen ids <> zlen f -> redistributeCellField world asked = Throw.
Proof. exact (cellField_throw world asked p ids f). Qed.
Print Assumptions C94_sizes_refused.
