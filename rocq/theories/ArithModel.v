(** Arithmetic on arrays, in place and by creation of a new array; MEDCouplingMemArray.txx.
    The values are of any type [A] and the operation is [f : A -> A -> res A], so that it may be undefined on some operands (integer division by zero).
    Simplifications: the instances on integers are those of unbounded integers (no overflow); ids and sizes are unbounded integers. *)
From Verif Require Import Base DataArray SetModel.

(** The divisions of C++: truncation toward zero, undefined for a null divisor. *)
Definition cdiv (x y : Z) : res Z := if y =? 0 then UB else Ok (Z.quot x y).
Definition cmod (x y : Z) : res Z := if y =? 0 then UB else Ok (Z.rem x y).

(** std::transform in place on the [n] values from [p], second operand from [q] of the source. *)
Definition transform2 {A} (f : A -> A -> res A) (s : source A) (n p q : Z) (l : list A) : res (list A) :=
  forZ 0 n (fun k l => let* x := rd l (p + k) in let* y := rd (srcVals s l) (q + k) in let* v := f x y in wr l (p + k) v) l.
(** The same where the second operand is bound to the value [y]. *)
Definition transform1 {A} (f : A -> A -> res A) (y : A) (n p : Z) (l : list A) : res (list A) :=
  forZ 0 n (fun k l => let* x := rd l (p + k) in let* v := f x y in wr l (p + k) v) l.
Definition leave {A} (d : da A) (r : res (list A)) : out A := onOk d r (fun l => ret (Ok tt) d l).

(** somethingEqual, 3028-3078. *)
Definition somethingEqual {A} (f : A -> A -> res A) (d : da A) (s : source A) : out A :=
  let a := srcArr d s in
  let nt := da_nt d in let nc := da_nc d in
  checked d (isNull s) (checked d (negb (da_alloc d)) (checked d (negb (da_alloc a))
  (if nt =? da_nt a then
     if nc =? da_nc a then leave d (transform2 f s (zlen (da_vals d)) 0 0 (da_vals d))
     else if da_nc a =? 1 then
       leave d (forZ 0 nt (fun i l => let* y := rd (srcVals s l) i in transform1 f y nc (i * nc) l) (da_vals d))
     else (Throw, d)
   else if da_nt a =? 1 then
     if da_nc a =? nc then leave d (forZ 0 nt (fun i l => transform2 f s nc (i * nc) 0 l) (da_vals d))
     else (Throw, d)
   else (Throw, d)))).
(** 3098-3102, 3121-3125, 3144-3148, 3168-3172, on integers. *)
Definition addEqual : da Z -> source Z -> out Z := somethingEqual (fun x y => Ok (x + y)).
Definition substractEqual : da Z -> source Z -> out Z := somethingEqual (fun x y => Ok (x - y)).
Definition multiplyEqual : da Z -> source Z -> out Z := somethingEqual (fun x y => Ok (x * y)).
Definition divideEqual : da Z -> source Z -> out Z := somethingEqual cdiv.

(** modulusEqual, 7815-7864. *)
Definition modulusEqual (d : da Z) (s : source Z) : out Z :=
  let a := srcArr d s in
  let nt := da_nt d in let nc := da_nc d in
  checked d (isNull s) (checked d (negb (da_alloc d)) (checked d (negb (da_alloc a))
  (if nt =? da_nt a then
     if nc =? da_nc a then leave d (transform2 cmod s (zlen (da_vals d)) 0 0 (da_vals d))
     else if da_nc a =? 1 then
       if da_nc a =? nc then
         leave d (forZ 0 nt (fun i l => let* y := rd (srcVals s l) i in transform1 cmod y nc (i * nc) l) (da_vals d))
       else (Throw, d)
     else (Throw, d)
   else if da_nt a =? 1 then leave d (forZ 0 nt (fun i l => transform2 cmod s nc (i * nc) 0 l) (da_vals d))
   else (Throw, d)))).

(** The loop [tmp = 1; for (j = 0; j < e; j++) tmp *= x]. *)
Definition power (x e : Z) : Z := default 1 (match forZ 0 e (fun _ t => Ok (t * x)) 1 with Ok t => Some t | _ => None end).
(** One value that is computed from the old one, or an exception. *)
Definition update {A} (p : Z) (h : A -> res A) (l : list A) : res unit * list A :=
  match (let* x := rd l p in let* v := h x in wr l p v) with Ok l' => (Ok tt, l') | Throw => (Throw, l) | UB => (UB, l) | Fuel => (Fuel, l) end.
(** powEqual, 7875-7911. *)
Definition powEqual (d : da Z) (s : source Z) : out Z :=
  let a := srcArr d s in
  checked d (isNull s) (checked d (negb (da_nt d =? da_nt a)) (checked d (negb (da_nc d =? 1) || negb (da_nc a =? 1))
  (done1 d (each (fun i l => update i (fun x => let* e := rd (srcVals s l) i in if 0 <=? e then Ok (power x e) else Throw) l) (seqZ 0 (da_nt d)) (da_vals d))))).

(** std::transform from two buffers to a third one. *)
Definition transformTo {A} (f : A -> A -> res A) (u : list A) (p : Z) (v : list A) (q n : Z) (r : Z) (b : list (option A)) : res (list (option A)) :=
  forZ 0 n (fun k b => let* x := rd u (p + k) in let* y := rd v (q + k) in let* z := f x y in wrc b (r + k) z) b.
Definition transform1To {A} (f : A -> A -> res A) (u : list A) (p : Z) (y : A) (n r : Z) (b : list (option A)) : res (list (option A)) :=
  forZ 0 n (fun k b => let* x := rd u (p + k) in let* z := f x y in wrc b (r + k) z) b.
(** An array argument that may be NULL. *)
Definition opt (A : Type) : Type := option (da A).
(** DivSub, 3176-3233, and Modulus, 8068-8125: the new array; the state of [res] in the loops is its offset. *)
Definition divSub {A} (f : A -> A -> res A) (a1 a2 : opt A) : res (da (option A)) :=
  match a1, a2 with
  | Some a1, Some a2 =>
      let n1 := da_nt a1 in let c1 := da_nc a1 in
      if da_nt a2 =? n1 then
        if c1 =? da_nc a2 then
          let* b := alloc A (da_nt a2) c1 in let* b := transformTo f (da_vals a1) 0 (da_vals a2) 0 (zlen (da_vals a1)) 0 b in Ok (DA true c1 b)
        else if da_nc a2 =? 1 then
          let* b := alloc A n1 c1 in
          let* (_, b) := forZ 0 n1 (fun i '(r, b) => let* y := rd (da_vals a2) i in let* b := transform1To f (da_vals a1) (i * c1) y c1 r b in Ok (r + c1, b)) (0, b) in Ok (DA true c1 b)
        else throw_if negb (c1 =? da_nc a2) >>> UB
      else if da_nt a2 =? 1 then
        throw_if negb (c1 =? da_nc a2) >>>
        let* b := alloc A n1 c1 in
        let* (_, b) := forZ 0 n1 (fun i '(r, b) => let* b := transformTo f (da_vals a1) (i * c1) (da_vals a2) 0 c1 r b in Ok (r + c1, b)) (0, b) in Ok (DA true c1 b)
      else throw_if negb (n1 =? da_nt a2) >>> UB
  | _, _ => Throw
  end.
(** MulAdd, 3304-3380. *)
Definition mulAdd {A} (f : A -> A -> res A) (a1 a2 : opt A) : res (da (option A)) :=
  match a1, a2 with
  | Some a1, Some a2 =>
      let n1 := da_nt a1 in let c1 := da_nc a1 in let n2 := da_nt a2 in let c2 := da_nc a2 in
      if n1 =? n2 then
        if c1 =? c2 then
          let* b := alloc A n1 c1 in let* b := transformTo f (da_vals a1) 0 (da_vals a2) 0 (zlen (da_vals a1)) 0 b in Ok (DA true c1 b)
        else
          let '(cMin, cMax, aMin, aMax) := if c2 <? c1 then (c2, c1, a2, a1) else (c1, c2, a1, a2) in
          if cMin =? 1 then
            let* b := alloc A n1 cMax in
            let* (_, b) := forZ 0 n1 (fun i '(r, b) => let* y := rd (da_vals aMin) i in let* b := transform1To f (da_vals aMax) (i * cMax) y cMax r b in Ok (r + cMax, b)) (0, b) in Ok (DA true cMax b)
          else Throw
      else if (n1 =? 1) && (1 <? n2) || (1 <? n1) && (n2 =? 1) then
        if c1 =? c2 then
          let nMax := Z.max n1 n2 in
          let aMin := if n2 <? n1 then a2 else a1 in let aMax := if n2 <? n1 then a1 else a2 in
          let* b := alloc A nMax c1 in
          let* (_, b) := forZ 0 nMax (fun i '(r, b) => let* b := transformTo f (da_vals aMax) (i * c1) (da_vals aMin) 0 c1 r b in Ok (r + c1, b)) (0, b) in Ok (DA true c1 b)
        else Throw
      else Throw
  | _, _ => Throw
  end.
(** Substract 3261, Divide 3297, Modulus 8068, Multiply 3412, Add 3448, on integers. *)
Definition Substract := divSub (fun x y => Ok (x - y)).
Definition Divide := divSub cdiv.
Definition Modulus := divSub cmod.
Definition Multiply := mulAdd (fun x y => Ok (x * y)).
Definition Add := mulAdd (fun x y => Ok (x + y)).
(** Pow, 8007-8041. *)
Definition Pow (a1 a2 : opt Z) : res (da (option Z)) :=
  match a1, a2 with
  | Some a1, Some a2 =>
      throw_if negb (da_nt a1 =? da_nt a2) >>> throw_if negb (da_nc a1 =? 1) || negb (da_nc a2 =? 1) >>>
      let* b := alloc Z (da_nt a1) 1 in
      let* b := forZ 0 (da_nt a1) (fun i b => let* x := rd (da_vals a1) i in let* e := rd (da_vals a2) i in throw_if e <? 0 >>> wrc b i (power x e)) b in Ok (DA true 1 b)
  | _, _ => Throw
  end.

(** applyLin on one component, 2969-2985, and on all, 2995-3003. *)
Definition applyLinCompo (d : da Z) (a b compoId : Z) : out Z :=
  checked d (negb (da_alloc d)) (checked d (da_nc d <=? compoId)
  (leave d (forZ 0 (da_nt d) (fun i l => let* x := rd l (compoId + i * da_nc d) in wr l (compoId + i * da_nc d) (a * x + b)) (da_vals d)))).
(** The loop on all the values. *)
Definition onAll {A} (h : A -> res A) (d : da A) : out A := done1 d (each (fun i l => update i h l) (seqZ 0 (zlen (da_vals d))) (da_vals d)).
Definition applyLin (d : da Z) (a b : Z) : out Z := checked d (negb (da_alloc d)) (onAll (fun x => Ok (a * x + b)) d).
(** abs, 3805-3812. *)
Definition absInPlace (d : da Z) : out Z := checked d (negb (da_alloc d)) (onAll (fun x => Ok (Z.abs x)) d).
(** applyInv 6163-6184, applyDivideBy 6195-6204, applyModulus 6215-6224, applyRModulus 6238-6259, applyPow 6270-6291, applyRPow 6303-6326. *)
Definition applyInv (d : da Z) (num : Z) : out Z := checked d (negb (da_alloc d)) (onAll (fun x => if negb (x =? 0) then cdiv num x else Throw) d).
Definition applyDivideBy (d : da Z) (val : Z) : out Z := checked d (val =? 0) (checked d (negb (da_alloc d)) (onAll (fun x => cdiv x val) d)).
Definition applyModulus (d : da Z) (val : Z) : out Z := checked d (val <=? 0) (checked d (negb (da_alloc d)) (onAll (fun x => cmod x val) d)).
Definition applyRModulus (d : da Z) (val : Z) : out Z := checked d (negb (da_alloc d)) (onAll (fun x => if 0 <? x then cmod val x else Throw) d).
Definition applyPow (d : da Z) (val : Z) : out Z :=
  checked d (negb (da_alloc d)) (checked d (val <? 0)
  (if val =? 0 then onAll (fun _ => Ok 1) d else onAll (fun x => Ok (power x val)) d)).
Definition applyRPow (d : da Z) (val : Z) : out Z := checked d (negb (da_alloc d)) (onAll (fun x => if 0 <=? x then Ok (power val x) else Throw) d).

(** negate 3014-3026, computeAbs 3829-3840: std::transform to a new array. *)
Definition mapTo (h : Z -> Z) (d : da Z) : res (da (option Z)) :=
  throw_if negb (da_alloc d) >>>
  let* b := alloc Z (da_nt d) (da_nc d) in
  let* b := forZ 0 (da_nt d * da_nc d) (fun k b => let* x := rd (da_vals d) k in wrc b k (h x)) b in Ok (DA true (da_nc d) b).
Definition negate := mapTo Z.opp.
Definition computeAbs := mapTo Z.abs.
(** sumPerTuple, 3868-3881. *)
Definition sumPerTuple (d : da Z) : res (da (option Z)) :=
  throw_if negb (da_alloc d) >>>
  let* b := alloc Z (da_nt d) 1 in
  let* b := forZ 0 (da_nt d) (fun i b =>
    let* t := forZ 0 (da_nc d) (fun j t => let* x := rd (da_vals d) (i * da_nc d + j) in Ok (t + x)) 0 in wrc b i t) b in Ok (DA true 1 b).
