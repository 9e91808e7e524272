(** What a range is: the integers b, b+s, b+2s, ... that stay strictly before e in the direction of s, in this order. *)
From Verif Require Import Base.

Definition before (s v e : Z) : Prop := (0 < s /\ v < e) \/ (s < 0 /\ e < v).

(** [l] lists exactly the elements of the range (b,e,s), in order. *)
Definition is_range_list (b e s : Z) (l : list Z) : Prop :=
  forall k v, l @ k = Some v <-> 0 <= k /\ v = b + k * s /\ before s v e.

(** The triple makes sense: the step is not null and does not point away from the end. *)
Definition valid_range (b e s : Z) : Prop := s <> 0 /\ (b < e -> 0 < s) /\ (e < b -> s < 0).
