(** The C++ standard containers and algorithms the modelled functions call, as list programs.  These follow the
    algorithms given by the C++ standard (they are part of the trusted base, not of /repo). *)
From Verif Require Import Base.

(** std::set<T>: the increasing list of its elements.  [insert]. *)
Fixpoint sins (x : Z) (s : list Z) : list Z :=
  match s with
  | [] => [x]
  | y :: s' => if x <? y then x :: s else if y <? x then y :: sins x s' else s
  end.
(** Range constructor / range insert. *)
Definition sins_all (l s : list Z) : list Z := foldl (fun s x => sins x s) s l.
Definition set_of (l : list Z) : list Z := sins_all l [].
(** [s.find(x) != s.end()]. *)
Fixpoint smem (x : Z) (s : list Z) : bool :=
  match s with [] => false | y :: s' => (x =? y) || smem x s' end.

(** std::map<T,V>: the list of its pairs, in the order of the keys.  [find], [m[k] = v]. *)
Fixpoint mget {V} (k : Z) (m : list (Z * V)) : option V :=
  match m with [] => None | (k', v) :: m' => if k =? k' then Some v else mget k m' end.
Fixpoint mset {V} (k : Z) (v : V) (m : list (Z * V)) : list (Z * V) :=
  match m with
  | [] => [(k, v)]
  | (k', v') :: m' => if k <? k' then (k, v) :: m else if k' <? k then (k', v') :: mset k v m' else (k', v) :: m'
  end.

(** std::sort on integers: the result is determined by the values. *)
Definition sort (l : list Z) : list Z := merge_sort Z.le l.

(** std::unique: keeps the first element of every run of equal values; the new end is at the length of the result. *)
Fixpoint unique_from (x : Z) (l : list Z) : list Z :=
  match l with [] => [] | y :: l' => if x =? y then unique_from x l' else y :: unique_from y l' end.
Definition unique (l : list Z) : list Z := match l with [] => [] | x :: l' => x :: unique_from x l' end.

(** std::set_difference, std::set_intersection, std::set_union: the two-cursor loops of the standard. *)
Fixpoint set_difference (a : list Z) : list Z -> list Z :=
  fix go (b : list Z) : list Z :=
  match a, b with
  | [], _ => []
  | _, [] => a
  | x :: a', y :: b' => if x <? y then x :: set_difference a' b else if y <? x then go b' else set_difference a' b'
  end.
Fixpoint set_intersection (a : list Z) : list Z -> list Z :=
  fix go (b : list Z) : list Z :=
  match a, b with
  | [], _ => []
  | _, [] => []
  | x :: a', y :: b' => if x <? y then set_intersection a' b else if y <? x then go b' else x :: set_intersection a' b'
  end.

(** std::equal from a position / std::search: offset of the returned iterator ([zlen l] is the end). *)
Fixpoint prefixb (pat l : list Z) : bool :=
  match pat, l with
  | [], _ => true
  | _, [] => false
  | p :: pat', x :: l' => (p =? x) && prefixb pat' l'
  end.
Fixpoint search (l pat : list Z) : Z :=
  if prefixb pat l then 0 else match l with [] => 0 | _ :: l' => 1 + search l' pat end.
(** std::find_if: offset of the returned iterator. *)
Fixpoint find_if (p : Z -> bool) (l : list Z) : Z :=
  match l with [] => 0 | x :: l' => if p x then 0 else 1 + find_if p l' end.
