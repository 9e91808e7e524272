(** OverlapElementLocator: who interpolates which pair of processes, and the exchange of the meshes needed for it.
    A vector indexed by the processes is a list; it is read with the empty list out of its bounds, where the C++ reads out of bounds. *)
From stdpp Require Import sorting.
From Verif Require Import Base.

Definition couple : Type := Z * Z.
Definition at_ {A} (l : list (list A)) (p : Z) : list A := default [] (l @ p).

(** OverlapElementLocator.cxx 135-142: [inter i j] is intersectsBoundingBox(i,j), the same function of the gathered boxes on every process. *)
Definition procPairs (n : Z) (inter : Z -> Z -> bool) : list (list Z) := (fun i => filter (fun j => inter i j) (seqZ 0 n)) <$> seqZ 0 n.

(** OverlapElementLocator.cxx 147-160, all the lists. *)
Definition computeTodoList_original (n : Z) (pairs : list (list Z)) : list (list couple) :=
  foldl (fun todo i => foldl (fun todo j =>
    if zlen (at_ todo i) <=? zlen (at_ todo j) then zset todo i (at_ todo i ++ [(i, j)]) else zset todo j (at_ todo j ++ [(i, j)]))
    todo (at_ pairs i)) (replicate (Z.to_nat n) []) (seqZ 0 n).

(** std::map<ProcCouple,int>: increasing keys. *)
Definition pltb (a b : couple) : bool := (a.1 <? b.1) || (a.1 =? b.1) && (a.2 <? b.2).
Fixpoint mput (k : couple) (v : Z) (m : list (couple * Z)) : list (couple * Z) :=
  match m with
  | [] => [(k, v)]
  | p :: m' => if pltb k p.1 then (k, v) :: m else if pltb p.1 k then p :: mput k v m' else (k, v) :: m'
  end.
Definition mdel (k : couple) (m : list (couple * Z)) : list (couple * Z) := filter (fun p : couple * Z => p.1 <> k) m.
Definition infinity : Z := 2147483647.
Definition atProc (f : list (couple * Z) -> list (couple * Z)) (p : Z) (fs : list (list (couple * Z))) : list (list (couple * Z)) := zset fs p (f (at_ fs p)).
(** OverlapElementLocator.cxx 197-207. *)
Definition bothSides (n : Z) (pairs : list (list Z)) : list (list (couple * Z)) :=
  foldl (fun fs i => foldl (fun fs j => atProc (mput (i, j) (-1)) j (atProc (mput (i, j) (-1)) i fs)) fs (at_ pairs i)) (replicate (Z.to_nat n) []) (seqZ 0 n).
(** OverlapElementLocator.cxx 208-228: sizes do not change meanwhile. *)
Definition loads (fs : list (list (couple * Z))) : list (list (couple * Z)) :=
  imap (fun p (m : list (couple * Z)) => (fun e : couple * Z =>
    (e.1, if e.1.1 =? e.1.2 then infinity else if e.1.1 =? Z.of_nat p then zlen (at_ fs e.1.2) else zlen (at_ fs e.1.1))) <$> m) fs.
(** OverlapElementLocator.cxx 239-250. *)
Definition mostLoaded (n : Z) (fs : list (list (couple * Z))) (valid : list bool) : Z * Z :=
  foldl (fun '(sz, id) p => if default false (valid @ p) && (sz <? zlen (at_ fs p)) then (zlen (at_ fs p), p) else (sz, id)) (-1, -1) (seqZ 0 n).
(** OverlapElementLocator.cxx 256-278. *)
Definition leastLoaded (rev : bool) (m : list (couple * Z)) : couple * Z :=
  foldl (fun '(hit, mn) (e : couple * Z) => if e.2 <? mn then (e.1, e.2) else (hit, mn)) ((-1, -1), infinity) (if rev then reverse m else m).
(** OverlapElementLocator.cxx 292-307. *)
Definition lessLoad (mx : Z) (valid : list bool) (fs : list (list (couple * Z))) : list (list (couple * Z)) :=
  imap (fun p (m : list (couple * Z)) =>
    if default false (valid @ Z.of_nat p) && negb (Z.of_nat p =? mx) then
      (fun e : couple * Z => if e.2 =? infinity then e else if (e.1.1 =? mx) || (e.1.2 =? mx) then (e.1, e.2 - 1) else e) <$> m
    else m) fs.
(** OverlapElementLocator.cxx 236-308, one turn of the loop; the break 252-253 is an end with no valid process. *)
Definition removeOne (n : Z) (rev : bool) (st : list (list (couple * Z)) * list bool) : res (list (list (couple * Z)) * list bool) :=
  let (fs, valid) := st in
  let (sz, mx) := mostLoaded n fs valid in
  if sz =? -1 then Ok (fs, replicate (Z.to_nat n) false) else
  let (hit, _) := leastLoaded rev (at_ fs mx) in
  if hit.1 =? -1 then Ok (fs, zset valid mx false) else
  let fs := atProc (mdel hit) mx fs in
  let fs := atProc (mput hit infinity) (if hit.1 =? mx then hit.2 else hit.1) fs in
  Ok (lessLoad mx valid fs, valid).
(** OverlapElementLocator.cxx 186-334. *)
Definition computeTodoList_new (n : Z) (rev : bool) (pairs : list (list Z)) : res (list (list couple)) :=
  let fs := loads (bothSides n pairs) in
  let fuel := S (Z.to_nat n + sum_list (length <$> fs)) in
  let* (fs, _) := whileM fuel (fun st => Ok (existsb (fun b => b) st.2)) (removeOne n rev) (fs, replicate (Z.to_nat n) true) in
  Ok ((fun m : list (couple * Z) => m.*1) <$> fs).
(** OverlapElementLocator.cxx 62-84. *)
Definition todoLists (algo : Z) (n : Z) (inter : Z -> Z -> bool) : res (list (list couple)) :=
  let pairs := procPairs n inter in
  if algo =? 0 then Ok (computeTodoList_original n pairs)
  else if algo =? 1 then computeTodoList_new n false pairs
  else if algo =? 2 then computeTodoList_new n true pairs
  else Throw.

(** ** What is sent. *)
Definition spair : Type := Z * bool.
(** operator< of std::pair<int,bool>. *)
Definition sle (a b : spair) : Prop := a.1 < b.1 \/ a.1 = b.1 /\ Is_true (implb a.2 b.2).
Global Instance sle_dec a b : Decision (sle a b).
Proof. unfold sle. apply _. Defined.
(** OverlapElementLocator.cxx 355-381, before the sort. *)
Definition procsToSendMesh (n me : Z) (todo : list (list couple)) : list spair :=
  concat ((fun i => concat ((fun pc : couple =>
    (if (pc.1 =? me) && negb (i =? me) then [(i, true)] else []) ++ (if (pc.2 =? me) && negb (i =? me) then [(i, false)] else [])) <$> at_ todo i)) <$> seqZ 0 n).
Definition procsToSendField (n me : Z) (todo : list (list couple)) : list Z :=
  concat ((fun i => concat ((fun pc : couple => if pc.1 =? me then [pc.2] else []) <$> at_ todo i)) <$> seqZ 0 n).
(** OverlapElementLocator.cxx 403-424. *)
Definition toReceive (first : bool) (me : Z) (todo : list couple) : list spair :=
  concat ((fun pc : couple =>
    if pc.1 =? pc.2 then [] else
    if pc.1 =? me then (if Bool.eqb (pc.2 <? me) first then [(pc.2, false)] else [])
    else (if Bool.eqb (pc.1 <? me) first then [(pc.1, true)] else [])) <$> todo).

(** ** The exchange. *)
(** One send or receive of MPI: partner, source or target mesh, part of the mesh (the tag is 1140 plus the part). *)
Inductive act : Type := Snd (q : Z) (b : bool) (k : Z) | Rcv (q : Z) (b : bool) (k : Z).
(** sendMesh, receiveMesh, OverlapElementLocator.cxx 548-641: sizes, tiny information, integers, coordinates, ids of the cells. *)
Definition parts (f : Z -> act) : list act := f <$> [0; 1; 2; 3; 4].
(** OverlapElementLocator.cxx 399-440. *)
Definition exchangeMeshes (n me : Z) (todo : list (list couple)) : list act :=
  concat ((fun s : spair => parts (Rcv s.1 s.2)) <$> merge_sort sle (toReceive true me (at_ todo me))) ++
  concat ((fun s : spair => parts (Snd s.1 s.2)) <$> merge_sort sle (procsToSendMesh n me todo)) ++
  concat ((fun s : spair => parts (Rcv s.1 s.2)) <$> merge_sort sle (toReceive false me (at_ todo me))).
