(** First occurrences, runs, ranks. *)
From Verif Require Import Base RenumSpec SearchSpec.

(** [r] lists, in the order of [l], the values of [l] at the positions where a value occurs for the first time. *)
Definition first_occurrences (l r : list Z) : Prop :=
  exists ids, Some <$> r = (fun i => l @ i) <$> ids /\ increasing ids /\ forall i, i ∈ ids <-> exists v, first_pos l v i.

(** [r] keeps the first value of every run of equal consecutive values of [l], [prev] being the value before [l]. *)
Inductive runs_firsts_from : option Z -> list Z -> list Z -> Prop :=
| rff_nil p : runs_firsts_from p [] []
| rff_same x l r : runs_firsts_from (Some x) l r -> runs_firsts_from (Some x) (x :: l) r
| rff_new p x l r : p <> Some x -> runs_firsts_from (Some x) l r -> runs_firsts_from p (x :: l) (x :: r).
