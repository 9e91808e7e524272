(** Vocabulary of data distributed over processes: item number [p] of a list is the data of process [p]. *)
From Verif Require Import Base SearchSpec SkyModel SkySpec.

(** [x] is in the slice of the process [r], of [N]: slices of nb / N ids, the last process takes what remains of [0, nb). *)
Definition in_slice (N nb r x : Z) : Prop := nb / N * r <= x /\ (if r =? N - 1 then x < nb else x < nb / N * (r + 1)).
(** Some process has the id [x]. *)
Definition held {B} (world : list (list Z * B)) (x : Z) : Prop := exists p ids b, world @ p = Some (ids, b) /\ x ∈ ids.
(** Process [p] has packs [packs p]; some process has [w] in a pack of the id [x]. *)
Definition in_pack (world : list (list Z * sky)) (packs : list (list (list Z))) (x w : Z) : Prop :=
  exists p ids s ps i q, world @ p = Some (ids, s) /\ packs @ p = Some ps /\ ids @ i = Some x /\ ps @ i = Some q /\ w ∈ q.
(** Each process has as many ids as packs. *)
Definition has_packs (world : list (list Z * sky)) (packs : list (list (list Z))) : Prop :=
  zlen packs = zlen world /\ forall p ids s ps, world @ p = Some (ids, s) -> packs @ p = Some ps -> sky2 ps s /\ zlen ids = zlen ps.
(** Some process has the value [y] on the cell of id [x]. *)
Definition value_on {A} (world : list (list Z * list A)) (x : Z) (y : A) : Prop :=
  exists p ids f i, world @ p = Some (ids, f) /\ ids @ i = Some x /\ f @ i = Some y.
