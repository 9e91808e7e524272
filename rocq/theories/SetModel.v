(** Writing a part of an array: setPartOfValues*, setPartOfValuesSimple*, setPartOfValuesAdv, setContigPartOfSelectedValues*.
    A call gives its outcome and the array it leaves, as some of them throw in the middle of the writes.
    Simplifications: ids and sizes are unbounded integers; forming a pointer out of a buffer without following it is not counted as an access. *)
From Verif Require Import Base DataArray SlicesModel.

(** The array argument: NULL, the array the method is called on, or another one. *)
Inductive source (A : Type) : Type := Null | Self | Other (a : da A).
Arguments Null {A}. Arguments Self {A}. Arguments Other {A} _.
Definition out (A : Type) : Type := res unit * da A.
Definition ret {A} (r : res unit) (d : da A) (l : list A) : out A := (r, DA (da_alloc d) (da_nc d) l).
Definition srcArr {A} (d : da A) (s : source A) : da A := match s with Other a => a | _ => d end.
(** The values of the source when the buffer of the array holds [l]. *)
Definition srcVals {A} (s : source A) (l : list A) : list A := match s with Other a => da_vals a | _ => l end.

(** Loop that stops at the first exception and keeps the state. *)
Fixpoint each {T S} (f : T -> S -> res unit * S) (l : list T) (s : S) : res unit * S :=
  match l with
  | [] => (Ok tt, s)
  | x :: l => match f x s with (Ok _, s) => each f l s | r => r end
  end.
Definition whenE {S} (bad : bool) (s : S) (k : res unit * S) : res unit * S := if bad then (Throw, s) else k.
(** One assignment [pt[p] = x] where [x] is read first. *)
Definition assign {A} (p : Z) (x : res A) (l : list A) : res unit * list A :=
  match (let* x := x in wr l p x) with Ok l' => (Ok tt, l') | _ => (UB, l) end.

(** MEDCouplingMemArray.cxx 774-783 and 790-809: [true] when the value is rejected. *)
Definition outOfRange (ref value : Z) : bool := (value <? 0) || (ref <=? value).
Definition outOfRangeEx (value start stop : Z) : bool :=
  ((start <? 0) || (value <=? start)) && (negb (value =? start) || negb (stop =? start)) || ((stop <? 0) || (value <? stop)).

(** The choice of the two ways of reading the source, MEDCouplingMemArray.txx 1775-1785, 1917-1927, 2066-2076, 2203-2213. *)
Definition technique {A} (a : da A) (nt nc : Z) (strict : bool) : res bool :=
  if zlen (da_vals a) =? nt * nc then
    throw_if strict && (negb (da_nt a =? nt) || negb (da_nc a =? nc)) >>> Ok true
  else throw_if negb (da_nt a =? 1) || negb (da_nc a =? nc) >>> Ok false.

(** The loop nests of setPartOfValues1..4, MEDCouplingMemArray.txx 1788-1802, 1930-1952, 2079-2102, 2216-2229: for every row and every column,
    the assignment of [srcPt] to [pt[base row + off column]].  [tech] tells that srcPt goes on from one row to the next.
    [bad]: the rows CheckValueInRange rejects, before the loop on the columns when [early], inside it otherwise. *)
Definition cells {A} (s : source A) (tech early : bool) (bad : Z -> bool) (base off : Z -> Z) (rows cols : list Z) (l : list A) : res unit * (Z * list A) :=
  each (fun r '(k0, l) =>
    whenE (early && bad r) (k0, l)
    (each (fun c '(k, l) =>
      whenE (negb early && bad r) (k, l)
      (let '(o, l) := assign (base r + off c) (rd (srcVals s l) k) l in (o, (k + 1, l)))) cols (if tech then k0 else 0, l))) rows (0, l).
(** The same with one value, 1853-1857, 1989-1996, 2138-2145, 2245-2249. *)
Definition cellsSimple {A} (a : A) (bad : Z -> bool) (base off : Z -> Z) (rows cols : list Z) (l : list A) : res unit * list A :=
  each (fun r l => each (fun c l => whenE (bad r) l (assign (base r + off c) (Ok a) l)) cols l) rows l.

Definition onOk {A T} (d : da A) (r : res T) (k : T -> out A) : out A :=
  match r with Ok x => k x | Throw => (Throw, d) | UB => (UB, d) | Fuel => (Fuel, d) end.
Definition checked {A} (d : da A) (bad : bool) (k : out A) : out A := if bad then (Throw, d) else k.
Definition isNull {A} (s : source A) : bool := match s with Null => true | _ => false end.
Definition done2 {A} (d : da A) '((r, (_, l)) : res unit * (Z * list A)) : out A := ret r d l.
Definition done1 {A} (d : da A) '((r, l) : res unit * list A) : out A := ret r d l.
Definition never (_ : Z) : bool := false.

(** 1749-1803. *)
Definition setPartOfValues1 {A} (d : da A) (s : source A) (bgT endT stepT bgC endC stepC : Z) (strict : bool) : out A :=
  let a := srcArr d s in
  checked d (isNull s) (checked d (negb (da_alloc d)) (checked d (negb (da_alloc a))
  (onOk d (GetNumberOfItemGivenBES bgT endT stepT) (fun nT => onOk d (GetNumberOfItemGivenBES bgC endC stepC) (fun nC =>
  checked d (outOfRangeEx (da_nt d) bgT endT) (checked d (outOfRangeEx (da_nc d) bgC endC)
  (onOk d (technique a nT nC strict) (fun tech =>
  done2 d (cells s tech false never (fun i => bgT * da_nc d + bgC + i * (stepT * da_nc d)) (fun j => j * stepC) (seqZ 0 nT) (seqZ 0 nC) (da_vals d)))))))))).
(** 1827-1858. *)
Definition setPartOfValuesSimple1 {A} (d : da A) (a : A) (bgT endT stepT bgC endC stepC : Z) : out A :=
  checked d (negb (da_alloc d))
  (onOk d (GetNumberOfItemGivenBES bgT endT stepT) (fun nT => onOk d (GetNumberOfItemGivenBES bgC endC stepC) (fun nC =>
  checked d (outOfRangeEx (da_nt d) bgT endT) (checked d (outOfRangeEx (da_nc d) bgC endC)
  (done1 d (cellsSimple a never (fun i => bgT * da_nc d + bgC + i * (stepT * da_nc d)) (fun j => j * stepC) (seqZ 0 nT) (seqZ 0 nC) (da_vals d))))))).
(** 1892-1953. *)
Definition setPartOfValues2 {A} (d : da A) (s : source A) (tuples comps : list Z) (strict : bool) : out A :=
  let a := srcArr d s in
  checked d (isNull s) (checked d (negb (da_alloc d)) (checked d (negb (da_alloc a))
  (checked d (existsb (outOfRange (da_nc d)) comps)
  (onOk d (technique a (zlen tuples) (zlen comps) strict) (fun tech =>
  done2 d (cells s tech true (outOfRange (da_nt d)) (fun w => w * da_nc d) (fun z => z) tuples comps (da_vals d))))))).
(** 1974-1997. *)
Definition setPartOfValuesSimple2 {A} (d : da A) (a : A) (tuples comps : list Z) : out A :=
  checked d (negb (da_alloc d))
  (checked d (existsb (outOfRange (da_nc d)) comps)
  (done1 d (cellsSimple a (outOfRange (da_nt d)) (fun w => w * da_nc d) (fun z => z) tuples comps (da_vals d)))).
(** 2040-2103. *)
Definition setPartOfValues3 {A} (d : da A) (s : source A) (tuples : list Z) (bgC endC stepC : Z) (strict : bool) : out A :=
  let a := srcArr d s in
  checked d (isNull s) (checked d (negb (da_alloc d)) (checked d (negb (da_alloc a))
  (onOk d (GetNumberOfItemGivenBES bgC endC stepC) (fun nC =>
  checked d (outOfRangeEx (da_nc d) bgC endC)
  (onOk d (technique a (zlen tuples) nC strict) (fun tech =>
  done2 d (cells s tech false (outOfRange (da_nt d)) (fun w => bgC + w * da_nc d) (fun j => j * stepC) tuples (seqZ 0 nC) (da_vals d)))))))).
(** 2124-2146. *)
Definition setPartOfValuesSimple3 {A} (d : da A) (a : A) (tuples : list Z) (bgC endC stepC : Z) : out A :=
  checked d (negb (da_alloc d))
  (onOk d (GetNumberOfItemGivenBES bgC endC stepC) (fun nC =>
  checked d (outOfRangeEx (da_nc d) bgC endC)
  (done1 d (cellsSimple a (outOfRange (da_nt d)) (fun w => bgC + w * da_nc d) (fun j => j * stepC) tuples (seqZ 0 nC) (da_vals d))))).
(** 2179-2230. *)
Definition setPartOfValues4 {A} (d : da A) (s : source A) (bgT endT stepT : Z) (comps : list Z) (strict : bool) : out A :=
  let a := srcArr d s in
  checked d (isNull s) (checked d (negb (da_alloc d)) (checked d (negb (da_alloc a))
  (onOk d (GetNumberOfItemGivenBES bgT endT stepT) (fun nT =>
  checked d (existsb (outOfRange (da_nc d)) comps) (checked d (outOfRangeEx (da_nt d) bgT endT)
  (onOk d (technique a nT (zlen comps) strict) (fun tech =>
  done2 d (cells s tech false never (fun i => bgT * da_nc d + i * (stepT * da_nc d)) (fun z => z) (seqZ 0 nT) comps (da_vals d))))))))).
(** 2231-2250. *)
Definition setPartOfValuesSimple4 {A} (d : da A) (a : A) (bgT endT stepT : Z) (comps : list Z) : out A :=
  checked d (negb (da_alloc d))
  (onOk d (GetNumberOfItemGivenBES bgT endT stepT) (fun nT =>
  checked d (existsb (outOfRange (da_nc d)) comps) (checked d (outOfRangeEx (da_nt d) bgT endT)
  (done1 d (cellsSimple a never (fun i => bgT * da_nc d + i * (stepT * da_nc d)) (fun z => z) (seqZ 0 nT) comps (da_vals d)))))).

(** std::copy of one tuple: from [p] of the source to [q]. *)
Definition copyTuple {A} (s : source A) (nc p q : Z) (l : list A) : res unit * list A :=
  each (fun j l => assign (q + j) (rd (srcVals s l) (p + j)) l) (seqZ 0 nc) l.
(** 2271-2317; the selector has two components: pairs (tuple of this, tuple of [a]). *)
Definition setPartOfValuesAdv {A} (d : da A) (s : source A) (sel : da Z) : out A :=
  let a := srcArr d s in
  checked d (isNull s) (checked d (negb (da_alloc d)) (checked d (negb (da_alloc a)) (checked d (negb (da_alloc sel))
  (checked d (negb (da_nc d =? da_nc a)) (checked d (negb (da_nc sel =? 2))
  (done1 d (each (fun i l =>
    match (let* t0 := rd (da_vals sel) (2 * i) in let* t1 := rd (da_vals sel) (2 * i + 1) in Ok (t0, t1)) with
    | Ok (t0, t1) => whenE (outOfRange (da_nt a) t1) l (whenE (outOfRange (da_nt d) t0) l
        (copyTuple s (da_nc d) (da_nc d * t1) (da_nc d * t0) l))
    | _ => (UB, l)
    end) (seqZ 0 (da_nt sel)) (da_vals d)))))))).
(** 2346-2398. *)
Definition setContigPartOfSelectedValues {A} (d : da A) (start : Z) (s : source A) (sel : da Z) : out A :=
  let a := srcArr d s in
  checked d (isNull s) (checked d (negb (da_alloc d)) (checked d (negb (da_alloc a)) (checked d (negb (da_alloc sel))
  (checked d (negb (da_nc d =? da_nc a)) (checked d (negb (da_nc sel =? 1))
  (checked d (da_nt d <? start + da_nt sel)
  (let '(r, (_, l)) := each (fun t '(q, l) => whenE (outOfRange (da_nt a) t) (q, l)
      (let '(r, l) := copyTuple s (da_nc d) (da_nc d * t) q l in (r, (q + da_nc d, l)))) (da_vals sel) (start * da_nc d, da_vals d) in ret r d l))))))).
(** 2424-2467. *)
Definition setContigPartOfSelectedValuesSlice {A} (d : da A) (start : Z) (s : source A) (bg end2 step : Z) : out A :=
  let a := srcArr d s in
  checked d (isNull s) (checked d (negb (da_alloc d)) (checked d (negb (da_alloc a))
  (onOk d (GetNumberOfItemGivenBES bg end2 step) (fun n =>
  checked d (negb (da_nc d =? da_nc a))
  (checked d (da_nt d <? start + n) (checked d (da_nt a <? end2)
  (done1 d (each (fun i l => copyTuple s (da_nc d) (bg * da_nc d + i * (step * da_nc d)) (start * da_nc d + i * da_nc d) l) (seqZ 0 n) (da_vals d))))))))).
