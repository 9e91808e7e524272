(** Matrices for the examples of C103. *)
From Coq Require Import QArith Qcanon ZifyBool.
From Verif Require Import Base ArrLib DataArray RemapSpec IvModel IvSpec IvExamples DmModel DmSpec.
Local Open Scope Z_scope.

(** Two arrays of six values, one of three. *)
Definition h6 : heap := [DA true 1 m23; DA true 1 m32; DA true 1 (q [2; -2; 4])].
Definition a23 : dm := DM 2 3 0.
Definition b32 : dm := DM 3 2 1.
Definition b23 : dm := DM 2 3 1.
Lemma a23_ok : denotes h6 a23 2 3 (mat_of 3 m23).
Proof. split; [lia|]. split; [lia|]. split; [done|]. split; [done|]. exists m23. split; [done|]. by apply mat_of_ok. Qed.
Lemma b32_ok : denotes h6 b32 3 2 (mat_of 2 m32).
Proof. split; [lia|]. split; [lia|]. split; [done|]. split; [done|]. exists m32. split; [done|]. by apply mat_of_ok. Qed.
Lemma b23_ok : denotes h6 b23 2 3 (mat_of 3 m32).
Proof. split; [lia|]. split; [lia|]. split; [done|]. split; [done|]. exists m32. split; [done|]. by apply mat_of_ok. Qed.
(** The values of array [p] and the sizes of a matrix, compared. *)
Definition has (h : heap) (m : dm) (r c : Z) (l : list Qc) : bool :=
  (dm_rows m =? r) && (dm_cols m =? c) && match h @ dm_data m with Some a => da_alloc a && (da_nc a =? 1) && eq_list (da_vals a) l | None => false end.
Definition gives (x : res (heap * dm)) (r c : Z) (l : list Qc) : bool := match x with Ok (h, m) => has h m r c l | _ => false end.
Definition givesh (x : res heap) (m : dm) (r c : Z) (l : list Qc) : bool := match x with Ok h => has h m r c l | _ => false end.
Lemma sound3 : sound (h6, [a23; b32; b23]).
Proof. intros m Hm. cbn [snd fst] in *. rewrite !elem_of_cons, elem_of_nil in Hm. destruct Hm as [->|[->|[->|[]]]]; eexists; [apply a23_ok|apply b32_ok|apply b23_ok]. Qed.
(** A matrix of two rows and no column. *)
Definition h0 : heap := [DA true 1 []].
Lemma e20_ok : denotes h0 (DM 2 0 0) 2 0 (fun _ _ => 0%Qc).
Proof. split; [lia|]. split; [lia|]. split; [done|]. split; [done|]. exists []. split; [done|]. split; [done|]. intros i j Hi Hj. lia. Qed.
