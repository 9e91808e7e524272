(** What a skyline array represents. *)
From Verif Require Import Base SearchSpec IndexSpec SkyModel.

(** The offsets of consecutive blocks of the given lengths, the first one beginning at [o]; the end of the last one included. *)
Fixpoint offs (o : Z) (lens : list Z) : list Z := match lens with [] => [o] | n :: l => o :: offs (o + n) l end.
(** The packs [ps] follow one another somewhere in [vals], and [idx] holds their offsets. *)
Definition laid {A} (ps : list (list A)) (vals : list A) (idx : list Z) : Prop :=
  exists before after, vals = before ++ concat ps ++ after /\ idx = offs (zlen before) (zlen <$> ps).
(** Two levels: a list of packs. *)
Definition sky2 (ps : list (list Z)) (s : sky) : Prop := laid ps (s_values s) (s_index s).
(** Three levels: a list of lists of packs. *)
Definition sky3 (pss : list (list (list Z))) (s : sky) : Prop := exists ps, laid pss ps (s_super s) /\ sky2 ps s.
(** The packs of the list whose position is not in [ids]; the first one is at position [k]. *)
Fixpoint without_from {A} (k : Z) (ids : list Z) (ps : list A) : list A :=
  match ps with [] => [] | p :: ps => if bool_decide (k ∈ ids) then without_from (k + 1) ids ps else p :: without_from (k + 1) ids ps end.
Definition without {A} (ids : list Z) (ps : list A) : list A := without_from 0 ids ps.
(** [q]: the elements of [p] in increasing order, once each. *)
Definition as_set (p q : list Z) : Prop := increasing q /\ forall x, x ∈ q <-> x ∈ p.
(** Consecutive packs put together: bounds k0 <= k1 <= ... give the packs [k0,k1), [k1,k2), ... *)
Fixpoint grouped (bounds : list Z) (ps : list (list Z)) : list (list Z) :=
  match bounds with a :: ((b :: _) as t) => concat (sub ps a b) :: grouped t ps | _ => [] end.
(** Pack number k of the result: the packs number k of all the lists, one after the other. *)
Definition aggregated (pss : list (list (list Z))) (r : list (list Z)) : Prop :=
  (forall ps, ps ∈ pss -> zlen ps = zlen r) /\ forall k q, r @ k = Some q -> q = concat (omap (fun ps => ps @ k) pss).
(** The position of the first pack equal to [p], or -1. *)
Definition first_or_none (qs : list (list Z)) (p : list Z) (r : Z) : Prop :=
  (r = -1 /\ p ∉ qs) \/ (qs @ r = Some p /\ forall j, j < r -> qs @ j <> Some p).
(** The nodal connectivity of a polyhedron (type id 31 first, the faces separated by -1). *)
Fixpoint faces_joined (qs : list (list Z)) : list Z := match qs with [] => [] | p :: qs => match qs with [] => p | _ => p ++ -1 :: faces_joined qs end end.
Definition poly_cell (qs : list (list Z)) : list Z := 31 :: faces_joined qs.
(** The three level array without anything before or after the packs. *)
Definition exact3 (pss : list (list (list Z))) (s : sky) : Prop :=
  s_super s = offs 0 (zlen <$> pss) /\ s_index s = offs 0 (zlen <$> concat pss) /\ s_values s = concat (concat pss).

(** Histories of calls, and what they do on the lists. *)
Inductive call3 := Push (i : Z) (p : list Z) | Replace (i j : Z) (p : list Z) | Delete (i j : Z).
Definition on_lists3 (pss : list (list (list Z))) (c : call3) : option (list (list (list Z))) :=
  match c with
  | Push i p => qs ← pss @ i; Some (zset pss i (qs ++ [p]))
  | Replace i j p => qs ← pss @ i; _ ← qs @ j; Some (zset pss i (zset qs j p))
  | Delete i j => qs ← pss @ i; _ ← qs @ j; Some (zset pss i (delete (Z.to_nat j) qs))
  end.
Definition on_array3 (s : sky) (c : call3) : res sky :=
  match c with Push i p => pushBackPack false s i p | Replace i j p => replacePack false s i j p | Delete i j => deletePack false s i j end.
Inductive call2 := Replace1 (k : Z) (p : list Z) | Delete1 (k : Z) | DeleteMany (ids : list Z).
Definition on_lists2 (ps : list (list Z)) (c : call2) : option (list (list Z)) :=
  match c with
  | Replace1 k p => _ ← ps @ k; Some (zset ps k p)
  | Delete1 k => p ← ps @ k; if bool_decide (p = []) then None else Some (delete (Z.to_nat k) ps)
  | DeleteMany ids => if forallb (fun i => (0 <=? i) && (i <? zlen ps)) ids then Some (without ids ps) else None
  end.
Definition on_array2 (s : sky) (c : call2) : res sky :=
  match c with Replace1 k p => replaceSimplePack false s k p | Delete1 k => deleteSimplePack false s k | DeleteMany ids => deleteSimplePacks false s ids end.
Fixpoint run_lists {A C} (step : A -> C -> option A) (a : A) (cs : list C) : option A := match cs with [] => Some a | c :: cs => a' ← step a c; run_lists step a' cs end.
