(** Products and inverses of matrices: src/INTERP_KERNEL/InterpKernelMatrixTools.cxx.  The values are exact rational numbers, not floating-point
    ones.  A division by zero gives infinite values in the code: it is undefined here. *)
From Coq Require Import QArith Qcanon Qcabs.
From Verif Require Import Base.
Local Open Scope Z_scope.

Definition qzero (x : Qc) : bool := Qc_eq_bool x 0%Qc.
Definition qlt (x y : Qc) : bool := negb (Qle_bool (this y) (this x)).
Definition divq (x y : Qc) : res Qc := ub_if qzero y >>> Ok (x / y)%Qc.

(** dscal, 89-119, for incx = 1 (the only use here), on the [n] values of [a] from [x]. *)
Definition dscal (n : Z) (sa : Qc) (a : list Qc) (x : Z) : res (list Qc) :=
  if n <=? 0 then Ok a else
  let step i a := let* v := rd a (x + i) in wr a (x + i) (sa * v)%Qc in
  let m := Z.rem n 5 in
  let* a := forZ 0 m step a in
  forZ 0 (Z.quot (n - m) 5) (fun b a => let i := m + 5 * b in
    let* a := step i a in let* a := step (i + 1) a in let* a := step (i + 2) a in let* a := step (i + 3) a in step (i + 4) a) a.
(** daxpy, 121-157, for incx = incy = 1, [x] and [y] being two positions of the same array. *)
Definition daxpy (n : Z) (da : Qc) (a : list Qc) (x y : Z) : res (list Qc) :=
  if n <=? 0 then Ok a else
  if qzero da then Ok a else
  let step i a := let* v := rd a (y + i) in let* w := rd a (x + i) in wr a (y + i) (v + da * w)%Qc in
  let m := Z.rem n 4 in
  let* a := forZ 0 m step a in
  forZ 0 (Z.quot (n - m) 4) (fun b a => let i := m + 4 * b in
    let* a := step i a in let* a := step (i + 1) a in let* a := step (i + 2) a in step (i + 3) a) a.
(** r8_abs, 159-166. *)
Definition r8_abs (x : Qc) : Qc := if Qle_bool 0 (this x) then x else (- x)%Qc.
(** dswap, 168-215, for incx = incy = 1, on two positions of the same array. *)
Definition dswap (n : Z) (a : list Qc) (x y : Z) : res (list Qc) :=
  if n <=? 0 then Ok a else
  let step i a := let* t := rd a (x + i) in let* v := rd a (y + i) in let* a := wr a (x + i) v in wr a (y + i) t in
  let m := Z.rem n 3 in
  let* a := forZ 0 m step a in
  forZ 0 (Z.quot (n - m) 3) (fun b a => let i := m + 3 * b in let* a := step i a in let* a := step (i + 1) a in step (i + 2) a) a.
(** idamax, 239-278, for incx = 1. *)
Definition idamax (n : Z) (a : list Qc) (x : Z) : res Z :=
  if n <? 1 then Ok (-1) else
  if n =? 1 then Ok 0 else
  let* d := rd a x in
  let* (value, _) := forZ 1 n (fun i '(value, dmax) => let* v := rd a (x + i) in Ok (if qlt dmax (r8_abs v) then (i, r8_abs v) else (value, dmax))) (0, r8_abs d) in
  Ok value.
(** dgefa, 308-353: the matrix, the pivots and info. *)
Definition dgefa (a : list Qc) (lda n : Z) (ipvt : list (option Z)) : res (list Qc * list (option Z) * Z) :=
  let* (a, ipvt, info) := forZ 0 (n - 1) (fun k '(a, ipvt, info) =>
    let* l := idamax (n - k) a (k + k * lda) in
    let l := l + k in
    let* ipvt := wrc ipvt k l in
    let* p := rd a (l + k * lda) in
    if qzero p then Ok (a, ipvt, k) else
    let* a := (if l =? k then Ok a else let* t := rd a (l + k * lda) in let* v := rd a (k + k * lda) in let* a := wr a (l + k * lda) v in wr a (k + k * lda) t) in
    let* d := rd a (k + k * lda) in
    let* t := divq (- 1)%Qc d in
    let* a := dscal (n - k - 1) t a (k + 1 + k * lda) in
    let* a := forZ (k + 1) n (fun j a =>
      let* t := rd a (l + j * lda) in
      let* a := (if l =? k then Ok a else let* v := rd a (k + j * lda) in let* a := wr a (l + j * lda) v in wr a (k + j * lda) t) in
      daxpy (n - k - 1) t a (k + 1 + k * lda) (k + 1 + j * lda)) a in
    Ok (a, ipvt, info)) (a, ipvt, 0) in
  let* ipvt := wrc ipvt (n - 1) (n - 1) in
  let* d := rd a (n - 1 + (n - 1) * lda) in
  Ok (a, ipvt, if qzero d then n else info).
(** dgedi, 380-414. *)
Definition dgedi (a : list Qc) (lda n : Z) (ipvt : list (option Z)) (work : list (option Qc)) : res (list Qc) :=
  let* a := forZ 0 n (fun k a =>
    let* d := rd a (k + k * lda) in
    let* d := divq 1%Qc d in
    let* a := wr a (k + k * lda) d in
    let* d := rd a (k + k * lda) in
    let* a := dscal k (- d)%Qc a (k * lda) in
    forZ (k + 1) n (fun j a =>
      let* t := rd a (k + j * lda) in
      let* a := wr a (k + j * lda) 0%Qc in
      daxpy (k + 1) t a (k * lda) (j * lda)) a) a in
  let* (a, _) := forZ 0 (n - 1) (fun q '(a, work) =>
    let k := n - 2 - q in
    let* (a, work) := forZ (k + 1) n (fun i '(a, work) =>
      let* v := rd a (i + k * lda) in
      let* work := wrc work i v in
      let* a := wr a (i + k * lda) 0%Qc in
      Ok (a, work)) (a, work) in
    let* a := forZ (k + 1) n (fun j a => let* t := rdc work j in daxpy n t a (j * lda) (k * lda)) a in
    let* l := rdc ipvt k in
    let* a := (if l =? k - 1 then Ok a else dswap n a (k * lda) (l * lda)) in
    Ok (a, work)) (a, work) in
  Ok a.
(** inverseMatrix, 436-444. *)
Definition inverseMatrix (A : list Qc) (n : Z) : res (list Qc) :=
  ub_if zlen A <? n * n >>>
  let iA := take (Z.to_nat (n * n)) A in
  let* (iA, ipvt, _) := dgefa iA n n (malloc Z n) in
  dgedi iA n n ipvt (malloc Qc (n * n)).
(** matrixProduct, 416-434: the values of [C], of size n1 * p2. *)
Definition matrixProduct (A : list Qc) (n1 p1 : Z) (B : list Qc) (n2 p2 : Z) : res (list (option Qc)) :=
  throw_if negb (p1 =? n2) >>>
  forZ 0 n1 (fun i C => forZ 0 p2 (fun j C =>
    let* C := wrc C (i * p2 + j) 0%Qc in
    forZ 0 p1 (fun k C => let* c := rdc C (i * p2 + j) in let* a := rd A (i * p1 + k) in let* b := rd B (k * p2 + j) in wrc C (i * p2 + j) (c + a * b)%Qc) C) C) (malloc Qc (n1 * p2)).
