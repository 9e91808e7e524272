(** C91: transfer of a field between two distributions of the same elements. *)
From Verif Require Import Base SearchSpec StrSpec BlkModel BlkSpec DecModel DecExamples.

(** [svals] and [tvals]: the arrays of the processes of the two groups; [x] is an element, (p, l) and (q, m) its places in the two distributions. *)
Theorem C91_transfer {A} N tS tT gS gT (svals tvals : list (list A)) : distributed tS gS -> distributed tT gT -> t_nb tS = t_nb tT -> increasing gS -> increasing gT ->
  (forall w, 0 <= w < N <-> w ∈ gS \/ w ∈ gT) -> (forall w, w ∈ gS -> w ∈ gT -> False) -> 4 <= N ->
  zlen svals = zlen gS -> zlen tvals = zlen gT -> (forall p v, svals @ p = Some v -> getNbLocalElements tS p = Ok (zlen v)) -> (forall q v, tvals @ q = Some v -> getNbLocalElements tT q = Ok (zlen v)) ->
  exists out, exchange N tS tT svals tvals = Ok out /\ zlen out = zlen gT /\ (forall q o, out @ q = Some o -> getNbLocalElements tT q = Ok (zlen o)) /\
    forall x p l q m, 0 <= x < t_nb tS -> globalToLocal tS x = Ok (p, l) -> globalToLocal tT x = Ok (q, m) -> exists v o y, svals @ p = Some v /\ v @ l = Some y /\ out @ q = Some o /\ o @ m = Some y.
Proof. exact (transfer_ok N tS tT gS gT svals tvals). Qed.
Print Assumptions C91_transfer.
Example C91_transfer_some : exists tS tT, fromGrid [0; 2] [5; 2] = Ok tS /\ fromCounts [1; 3] [3; 7] = Ok tT /\ distributed tS [0; 2] /\ distributed tT [1; 3] /\ t_nb tS = t_nb tT /\ increasing [0; 2] /\ increasing [1; 3] /\
  (forall w, 0 <= w < 4 <-> w ∈ [0; 2] \/ w ∈ [1; 3]) /\ (forall p v, [[10; 11; 12; 13; 14; 15]; [20; 21; 22; 23]] @ p = Some v -> getNbLocalElements tS p = Ok (zlen v)) /\
  (forall q v, [[0; 0; 0]; [0; 0; 0; 0; 0; 0; 0]] @ q = Some v -> getNbLocalElements tT q = Ok (zlen v)) /\
  exchange 4 tS tT [[10; 11; 12; 13; 14; 15]; [20; 21; 22; 23]] [[0; 0; 0]; [0; 0; 0; 0; 0; 0; 0]] = Ok [[10; 11; 12]; [13; 14; 15; 20; 21; 22; 23]].
Proof. exact transfer_some. Qed.
(** Distributions of different numbers of elements are refused. *)
Theorem C91_sizes_refused {A} N tS tT gS gT (svals tvals : list (list A)) : distributed tS gS -> distributed tT gT -> increasing gS -> increasing gT -> t_nb tS <> t_nb tT -> exchange N tS tT svals tvals = Throw.
Proof. exact (transfer_refused N tS tT gS gT svals tvals). Qed.
Print Assumptions C91_sizes_refused.
(** With fewer than four processes the trace reads outside the arrays. *)
Theorem C91_few_processes_refuted : exists tS tT, fromGrid [0] [4] = Ok tS /\ fromGrid [1] [4] = Ok tT /\ distributed tS [0] /\ distributed tT [1] /\ exchange 2 tS tT [[10; 11; 20; 21]] [[0; 0; 0; 0]] = UB.
Proof. exact few_bad. Qed.
Print Assumptions C91_few_processes_refuted.
(** With a group whose ranks are not in increasing order the first element, worth 10 in the source, is worth 20 in the target. *)
Theorem C91_order_refuted : exists tS tT out o, fromGrid [2; 0] [4] = Ok tS /\ fromCounts [1; 3] [4; 0] = Ok tT /\ distributed tS [2; 0] /\ distributed tT [1; 3] /\
  exchange 4 tS tT [[10; 11]; [20; 21]] [[0; 0; 0; 0]; []] = Ok out /\ globalToLocal tS 0 = Ok (0, 0) /\ globalToLocal tT 0 = Ok (0, 0) /\ out @ 0 = Some o /\ o @ 0 = Some 20.
Proof. exact order_bad. Qed.
Print Assumptions C91_order_refuted.
