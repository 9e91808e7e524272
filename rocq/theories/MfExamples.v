From stdpp Require Import strings.
From Verif Require Import Base ArrLib SerModel MfModel MfSpec.
From Coq Require Import QArith.
Local Open Scope Z_scope.
Local Open Scope list_scope.

(** Two meshes, three arrays; three fields, the first two on the same mesh and with an array in common. *)
Definition ex_s : store Z Z := St [10; 20] [7; 8; 9].
Definition ex_f0 : fld Z := Fld 100 1 50 (Some 0) 5 [Some 1] "s" (1#10)%Q [(3, 4, 5%Q)].
Definition ex_f2 : fld Z := Fld 101 2 51 (Some 0) 6 [Some 1; Some 2] "ms" (1#5)%Q [(1, 2, 0%Q); (5, 6, 1%Q)].
Definition ex_f3 : fld Z := Fld 102 3 50 (Some 1) 4 [None] "" 0%Q [].
Definition ex_fs : list (option (fld Z)) := [Some ex_f0; None; Some ex_f2; Some ex_f3].
Definition ex_addr (i : Z) : Z := 200 + i.
Lemma ex_at i f : ex_fs @ i = Some (Some f) -> f = ex_f0 \/ f = ex_f2 \/ f = ex_f3.
Proof.
  intros H. assert (Hf : Some f ∈ ex_fs) by (apply elem_of_zlook; by exists i). unfold ex_fs in Hf. rewrite !elem_of_cons, elem_of_nil in Hf.
  destruct Hf as [[= ->]|[[=]|[[= ->]|[[= ->]|[]]]]]; auto.
Qed.
Lemma ex_timed : WellTimed ex_f0 /\ WellTimed ex_f2 /\ WellTimed ex_f3.
Proof. split; [|split]; [right; left|right; right; left|left]; done. Qed.
Lemma ex_ok i f : ex_fs @ i = Some (Some f) -> WellTimed f /\ InMemory ex_s f /\ f_mesh f <> None.
Proof.
  destruct ex_timed as (T0 & T2 & T3). intros [->|[->| ->]]%ex_at; (split; [done|]); (split; [|done]); split; cbn.
  - intros m [= <-]. done.
  - intros a Ha. apply elem_of_list_singleton in Ha as [= ->]. done.
  - intros m [= <-]. done.
  - intros a Ha. rewrite !elem_of_cons, elem_of_nil in Ha. destruct Ha as [[= ->]|[[= ->]|[]]]; done.
  - intros m [= <-]. done.
  - intros a Ha. by apply elem_of_list_singleton in Ha.
Qed.
