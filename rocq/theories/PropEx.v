(** Expressions of applyFunc. *)
From Coq Require Import Ascii String.
From stdpp Require Import strings.
From Verif Require Import Base ExModel ExSpec ExProofs5 ExProofs6 ExExamples.
Local Open Scope Z_scope.

(** A text that is, up to spaces, the one of an expression of at most ten numbers, is given the value of this expression, by both evaluators. *)
Theorem C95_value {D} (o : ops D) text e : wf e -> zlen (literals e) <= 10 -> zlen (s2l text) < npos -> noSpaces (s2l text) = show e ->
  evaluate o text = Ok (value o e) /\ evaluateFast o text = Ok (value o e).
Proof. exact (evaluate_show o text e). Qed.
Print Assumptions C95_value.
Example C95_value_some : wf ex1 /\ zlen (literals ex1) <= 10 /\ evaluate zops "2 * -(3 + 1.5e+2) - log10(x1) / 2" = Ok (-309) /\ noSpaces (s2l "2 * -(3 + 1.5e+2) - log10(x1) / 2") = show ex1 /\ value zops ex1 = -309.
Proof. exact ex1_ok. Qed.

(** A text that is given a value has brackets that match. *)
Theorem C95_brackets {D} (o : ops D) text v : evaluate o text = Ok v \/ evaluateFast o text = Ok v -> balanced (s2l text).
Proof. exact (evaluate_balanced o text v). Qed.
Print Assumptions C95_brackets.
Example C95_brackets_some : evaluate zops "((2+3)*(4-(1)))" = Ok 15 /\ evaluate zops "((2+3)*4" = Throw /\ evaluate zops ")2+3(" = Throw.
Proof. vm_compute. repeat split. Qed.

(** A sign is applied before a power, not after. *)
Theorem C95_sign_power_refuted : evaluate zops "-2^2" = Ok 4 /\ evaluate zops "0-2^2" = Ok (-4).
Proof. vm_compute. repeat split. Qed.
Print Assumptions C95_sign_power_refuted.
(** Powers go from left to right. *)
Theorem C95_power_power_refuted : evaluate zops "2^3^2" = Ok 64.
Proof. vm_compute. repeat split. Qed.
Print Assumptions C95_power_power_refuted.
(** A number that begins with a point is replaced by the first number of the text: here 7 + 7 instead of 7 + 0.5. *)
Theorem C95_point_refuted : evaluate zops "7+.5" = Ok 14.
Proof. vm_compute. repeat split. Qed.
Print Assumptions C95_point_refuted.
(** Fourteen numbers of one figure are refused, although the same number of longer ones is not. *)
Theorem C95_many_numbers_refuted : evaluate zops "0+1+2+3+4+5+6+7+8+9+1+2+3+4" = Throw /\ evaluate zops "10+11+12+13+14+5+6+7+8+9+1+2+3+4" = Ok 105.
Proof. vm_compute. repeat split. Qed.
Print Assumptions C95_many_numbers_refuted.
(** A sign before a function is refused. *)
Theorem C95_sign_function_refuted : evaluate zops "-cos(x)" = Throw /\ evaluate zops "0-cos(x)" = Ok (-6) /\ evaluate zops "-(cos(x))" = Ok (-6).
Proof. vm_compute. repeat split. Qed.
Print Assumptions C95_sign_function_refuted.
(** A function of several arguments is refused inside brackets or inside another one. *)
Theorem C95_nested_refuted : evaluate zops "max(max(1,2),3)" = Throw /\ evaluate zops "(max(1,2))" = Throw /\ evaluate zops "max(1,2)" = Ok 2.
Proof. vm_compute. repeat split. Qed.
Print Assumptions C95_nested_refuted.
(** A comparison inside brackets or arguments is refused when these are an operand. *)
Theorem C95_comparison_refuted : evaluate zops "if(x>2,7,8)" = Ok 7 /\ evaluate zops "if(x>2,7,8)*2" = Throw /\ evaluate zops "(x>2)*3" = Throw.
Proof. vm_compute. repeat split. Qed.
Print Assumptions C95_comparison_refuted.
(** Two signs are accepted alone and refused in a sum. *)
Theorem C95_two_signs_refuted : evaluate zops "--2" = Ok 2 /\ evaluate zops "--2+1" = Throw.
Proof. vm_compute. repeat split. Qed.
Print Assumptions C95_two_signs_refuted.
(** On a list between brackets the two evaluators differ, and a sign before reads below the stack. *)
Theorem C95_list_refuted : evaluate zops "(3,4)-5" = Ok (-2) /\ evaluateFast zops "(3,4)-5" = Ok (-1) /\ evaluate zops "*(3)" = Throw /\ evaluate zops "--(3,4)" = UB.
Proof. vm_compute. repeat split. Qed.
Print Assumptions C95_list_refuted.
