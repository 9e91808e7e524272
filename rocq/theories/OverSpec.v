(** Sharing of pairs of processes; processes exchanging messages. *)
From Verif Require Import Base OverModel.

(** Every pair of processes that interact is given once, to one of the two. *)
Definition interact (n : Z) (inter : Z -> Z -> bool) (c : couple) : Prop := 0 <= c.1 < n /\ 0 <= c.2 < n /\ inter c.1 c.2 = true.
Definition shared (n : Z) (inter : Z -> Z -> bool) (todo : list (list couple)) : Prop :=
  zlen todo = n /\
  (forall p l, todo @ p = Some l -> NoDup l /\ forall c, c ∈ l -> interact n inter c /\ (p = c.1 \/ p = c.2)) /\
  (forall c, interact n inter c -> exists p l, todo @ p = Some l /\ c ∈ l) /\
  (forall c p p' l l', todo @ p = Some l -> todo @ p' = Some l' -> c ∈ l -> c ∈ l' -> p = p').

(** ** Processes and messages.
    Every process has a sequence of blocking sends and receives to do.  Between two processes messages wait in the order of their sending.  A message has a
    tag and is worth what its sender put in it: which mesh (source or target) and which part.  MPI may let a send end before
    its receive begins (message stored), or not (both end together).  A receive takes the first message from its partner with its tag;
    it notes what it expected and what it got. *)
Record world : Type := W { prog : Z -> list act; wire : Z -> Z -> list (bool * Z); got : Z -> list ((Z * bool * Z) * (bool * Z)) }.
Definition upd {A} (f : Z -> A) (p : Z) (x : A) : Z -> A := fun q => if q =? p then x else f q.
Definition upd2 {A} (f : Z -> Z -> A) (p q : Z) (x : A) : Z -> Z -> A := fun p' q' => if (p' =? p) && (q' =? q) then x else f p' q'.
(** Steps that need no storage: a waiting message is received; a send and its receive end together. *)
Inductive move : world -> world -> Prop :=
| Deliver pg w g p q b k rest pre b' post : pg p = Rcv q b k :: rest -> w q p = pre ++ (b', k) :: post -> (forall m, m ∈ pre -> m.2 <> k) ->
    move (W pg w g) (W (upd pg p rest) (upd2 w q p (pre ++ post)) (upd g p (g p ++ [((q, b, k), (b', k))])))
| Meet pg w g p q b b' k rest rest' : p <> q -> pg p = Snd q b k :: rest -> pg q = Rcv p b' k :: rest' -> (forall m, m ∈ w p q -> m.2 <> k) ->
    move (W pg w g) (W (upd (upd pg p rest) q rest') w (upd g q (g q ++ [((p, b', k), (b, k))]))).
(** Any step. *)
Inductive step : world -> world -> Prop :=
| Move s s' : move s s' -> step s s'
| Store pg w g p q b k rest : pg p = Snd q b k :: rest -> step (W pg w g) (W (upd pg p rest) (upd2 w p q (w p q ++ [(b, k)])) g).
Inductive steps : nat -> world -> world -> Prop :=
| Steps0 s : steps 0 s s
| StepsS n s s' s'' : steps n s s' -> step s' s'' -> steps (S n) s s''.
Definition start (n : Z) (progs : Z -> list act) : world := W (fun p => if (0 <=? p) && (p <? n) then progs p else []) (fun _ _ => []) (fun _ => []).
Definition finished (s : world) : Prop := (forall p, prog s p = []) /\ forall p q, wire s p q = [].
(** What process [p] needs from [q]: its source mesh for the pair (q,p), its target mesh for (p,q). *)
Definition needs (todo : list (list couple)) (p q : Z) (b : bool) : Prop := p <> q /\ exists l, todo @ p = Some l /\ (if b then (q, p) else (p, q)) ∈ l.
