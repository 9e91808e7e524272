(** Expressions: examples. *)
From Coq Require Import Ascii String ZifyBool ZifyNat.
From stdpp Require Import strings.
From Verif Require Import Base ExModel ExSpec.
Local Open Scope Z_scope.

(** Integers; the variables are 5; the functions other than the opposite add 1. *)
Definition zops : ops Z := {|
  o_num := fun d => let 'Dec m e := d in if 0 <=? e then m * 10 ^ e else m / 10 ^ (- e);
  o_var := fun _ => 5;
  o_un := fun n x => if bool_decide (n = s2l "-") then - x else x + 1;
  o_bin := fun n x y => if bool_decide (n = s2l "+") then x + y else if bool_decide (n = s2l "-") then x - y else if bool_decide (n = s2l "*") then x * y
    else if bool_decide (n = s2l "/") then x / y else if bool_decide (n = s2l "^") then x ^ y else if bool_decide (n = s2l "max") then Z.max x y else if bool_decide (n = s2l "min") then Z.min x y
    else if bool_decide (n = s2l ">") then if y <? x then 1 else 0 else if x <? y then 1 else 0;
  o_ter := fun _ x y z => if x =? 0 then z else y |}.
Definition nat_ (s : string) : lit := Lit (s2l s) None None.
(** 2 * -(3 + 1.5e+2) - log10(x1) / 2 *)
Definition ex1 : expr :=
  EBin "-" (EBin "*" (ENum NoSign (nat_ "2")) (EPar Minus (EBin "+" (ENum NoSign (nat_ "3")) (ENum NoSign (Lit (s2l "1") (Some (s2l "5")) (Some ("e"%char, Some "+"%char, s2l "2")))))))
    (EBin "/" (ECall (s2l "log10") (EVar NoSign (s2l "x1"))) (ENum NoSign (nat_ "2"))).
Lemma ex1_ok : wf ex1 /\ zlen (literals ex1) <= 10 /\ evaluate zops "2 * -(3 + 1.5e+2) - log10(x1) / 2" = Ok (-309) /\ noSpaces (s2l "2 * -(3 + 1.5e+2) - log10(x1) / 2") = show ex1 /\ value zops ex1 = -309.
Proof.
  split; [|split; [by vm_compute|split; [by vm_compute|split; by vm_compute]]]. cbn [wf ex1]. unfold litOk, nameOk, digits. cbn.
  repeat match goal with |- _ /\ _ => split | |- Forall _ _ => repeat constructor | |- _ <> _ => done | |- forall _, _ => intros end; simplify_eq; try done; try (by vm_compute); try (by left); try (by right).
  all: try (repeat constructor); try (by vm_compute).
  all: try (by eexists _, _; repeat split).
  all: try (unfold unaryNames; cbn; set_solver).
Qed.
