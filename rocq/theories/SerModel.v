(** Serialization of arrays and of meshes: the four steps used by MPI, CORBA and the Python pickling.
    The sender calls getTinySerializationInformation and serialize; the receiver, on a new instance, calls resizeForUnserialization on two
    new arrays, receives the values in them, and calls unserialization with the tiny information.  Python calls unserialization
    directly with the arrays of the sender (MEDCouplingCommon.i 1223-1273).
    [D] is the type of the double precision numbers, which are only copied. *)
From stdpp Require Import strings.
From Verif Require Import Base StdModel.

Local Open Scope string_scope.
Local Open Scope Z_scope.
Local Open Scope list_scope.
(** MEDCouplingMemArray.hxx: name, one string per component, and the buffer ([None]: not allocated; a cell [None]: not initialised). *)
Record arr (V : Type) : Type := Arr { a_name : string; a_info : list string; a_mem : option (list (option V)) }.
Arguments Arr {V} _ _ _. Arguments a_name {V} _. Arguments a_info {V} _. Arguments a_mem {V} _.
Definition vals {V} (a : arr V) : list (option V) := match a_mem a with Some l => l | None => [] end.
Definition isAlloc {V} (a : arr V) : bool := match a_mem a with Some _ => true | None => false end.
Definition nComp {V} (a : arr V) : Z := zlen (a_info a).
Definition nElems {V} (a : arr V) : Z := zlen (vals a).
(** MEDCouplingMemArray.hxx 315. *)
Definition nTuples {V} (a : arr V) : Z := if nComp a =? 0 then 0 else Z.quot (nElems a) (nComp a).
Definition newArr {V} : arr V := Arr "" [] None.
(** std::vector<std::string>::resize. *)
Definition resizeS (n : Z) (l : list string) : list string := take (Z.to_nat n) l ++ replicate (Z.to_nat n - length l) "".
(** alloc, MEDCouplingMemArray.txx 819-824. *)
Definition allocA {V} (nt nc : Z) (a : arr V) : res (arr V) :=
  ub_if (nt <? 0) || (nc <? 0) >>> Ok (Arr (a_name a) (resizeS nc (a_info a)) (Some (malloc V (nc * nt)))).
Definition setName {V} (s : string) (a : arr V) : arr V := Arr s (a_info a) (a_mem a).
(** MEDCouplingMemArray.cxx 665-676. *)
Definition setInfo {V} (i : Z) (s : string) (a : arr V) : res (arr V) :=
  throw_if negb ((0 <=? i) && (i <? nComp a)) >>> Ok (Arr (a_name a) (zset (a_info a) i s) (a_mem a)).
(** std::copy of [src] at position [d] of the buffer of [a]. *)
Definition copyTo {V} (src : list (option V)) (d : Z) (a : arr V) : res (arr V) :=
  ub_if (d <? 0) || (nElems a <? d + zlen src) >>>
  match a_mem a with
  | None => Ok a
  | Some l => Ok (Arr (a_name a) (a_info a) (Some (take (Z.to_nat d) l ++ src ++ drop (Z.to_nat (d + zlen src)) l)))
  end.
(** std::vector<T> v(l.begin() + a, l.begin() + b), and the range [p + a, p + b) of a buffer. *)
Definition subv {T} (l : list T) (a b : Z) : res (list T) :=
  ub_if (a <? 0) || (b <? a) || (zlen l <? b) >>> Ok (take (Z.to_nat (b - a)) (drop (Z.to_nat a) l)).
(** A method called on a pointer. *)
Definition deref {A B} (p : option A) (k : A -> res B) : res B := match p with Some x => k x | None => UB end.

(** MEDCouplingMemArray.txx 7918-7952 (the same in MEDCouplingMemArray.cxx 3935-3967). *)
Definition tinyI {V} (a : arr V) : list Z := if isAlloc a then [nTuples a; nComp a] else [-1; -1].
Definition tinyS {V} (a : arr V) : list string := if isAlloc a then a_name a :: a_info a else [a_name a].
(** MEDCouplingMemArray.txx 7958-7970, .cxx 3976-3987; the flag tells the caller to send the values. *)
Definition resizeFor {V} (tI : list Z) (a : arr V) : res (arr V * bool) :=
  let* nt := rd tI 0 in let* nc := rd tI 1 in
  if negb (nt =? -1) || negb (nc =? -1) then let* a := allocA nt nc a in Ok (a, true) else Ok (a, false).
(** MEDCouplingMemArray.txx 7976-7988 (integers: the number of components is the one received) and .cxx 3992-4002 (doubles: the one of the array). *)
Definition finishWith {V} (n : Z) (tS : list string) (a : arr V) : res (arr V) :=
  forZ 0 n (fun i a => let* s := rd tS (i + 1) in setInfo i s a) a.
Definition finishInt {V} (tI : list Z) (tS : list string) (a : arr V) : res (arr V) :=
  let* s := rd tS 0 in let a := setName s a in
  if isAlloc a then let* n := rd tI 1 in finishWith n tS a else Ok a.
Definition finishDbl {V} (tS : list string) (a : arr V) : res (arr V) :=
  let* s := rd tS 0 in let a := setName s a in
  if isAlloc a then finishWith (nComp a) tS a else Ok a.
(** The transport: the values of the sender land at the beginning of the buffer of the receiver. *)
Definition recv {V} (src : list (option V)) (a : arr V) : res (arr V) := copyTo src 0 a.
Definition transmitIntTo {V} (a b : arr V) : res (arr V) :=
  let* (b, feed) := resizeFor (tinyI a) b in
  let* b := if feed then recv (vals a) b else Ok b in
  finishInt (tinyI a) (tinyS a) b.
Definition transmitInt {V} (a : arr V) : res (arr V) := transmitIntTo a newArr.
Definition transmitDblTo {V} (a b : arr V) : res (arr V) :=
  let* (b, feed) := resizeFor (tinyI a) b in
  let* b := if feed then recv (vals a) b else Ok b in
  finishDbl (tinyS a) b.
Definition transmitDbl {V} (a : arr V) : res (arr V) := transmitDblTo a newArr.

(** The part common to all the meshes: name, description, time unit, time, iteration, order. *)
Record head (D : Type) : Type := Head { h_name : string; h_desc : string; h_unit : string; h_time : D; h_it : Z; h_ord : Z }.
Arguments Head {D} _ _ _ _ _ _. Arguments h_name {D} _. Arguments h_desc {D} _. Arguments h_unit {D} _.
Arguments h_time {D} _. Arguments h_it {D} _. Arguments h_ord {D} _.
(** An array of one component made from a list of values. *)
Definition flat {V} (l : list (option V)) : arr V := Arr "" [""] (Some l).
(** What a possibly null array contributes. *)
Definition optI {V} (o : option (arr V)) : list Z := match o with Some a => tinyI a | None => [] end.
Definition optS {V} (o : option (arr V)) : list string := match o with Some a => tinyS a | None => [] end.
Definition optV {V} (o : option (arr V)) : list (option V) := match o with Some a => vals a | None => [] end.

(** ** Single geometric type, MEDCoupling1GTUMesh.cxx 1783-1890.  The cell type is its number; GetCellModel, which throws for an unknown
    number, is not modelled. *)
Record sgt (D : Type) : Type := Sgt { s_head : head D; s_type : Z; s_coords : option (arr D); s_conn : option (arr Z) }.
Arguments Sgt {D} _ _ _ _. Arguments s_head {D} _. Arguments s_type {D} _. Arguments s_coords {D} _. Arguments s_conn {D} _.
Definition sgt_tiny {D} (m : sgt D) : list D * list Z * list string :=
  let h := s_head m in
  let S2 := optS (s_coords m) in let S3 := optS (s_conn m) in
  let I2 := optI (s_coords m) in let I3 := optI (s_conn m) in
  ([h_time h], [s_type m; h_it h; h_ord h; zlen S2; zlen S3; zlen I2; zlen I3] ++ I2 ++ I3, [h_name h; h_desc h; h_unit h] ++ S2 ++ S3).
Definition sgt_resize {D} (tI : list Z) (a1 : arr Z) (a2 : arr D) : res (arr Z * arr D) :=
  let* n5 := rd tI 5 in let* n6 := rd tI 6 in
  let* t2 := subv tI 7 (7 + n5) in
  let* t1 := subv tI (7 + n5) (7 + n5 + n6) in
  let* (a1, _) := resizeFor t1 a1 in
  let* (a2, _) := resizeFor t2 a2 in
  Ok (a1, a2).
Definition sgt_serialize {D} (m : sgt D) : arr Z * arr D := (flat (optV (s_conn m)), flat (optV (s_coords m))).
Definition sgt_unserialize {D} (tD : list D) (tI : list Z) (a1 : arr Z) (a2 : arr D) (tS : list string) : res (sgt D) :=
  let* ty := rd tI 0 in
  let* name := rd tS 0 in let* desc := rd tS 1 in let* unit := rd tS 2 in
  let* time := rd tD 0 in let* it := rd tI 1 in let* ord := rd tI 2 in
  let* sz0 := rd tI 3 in let* sz1 := rd tI 4 in let* sz2 := rd tI 5 in let* sz3 := rd tI 6 in
  let* t2 := subv tI 7 (7 + sz2) in
  let* (coords, _) := resizeFor t2 newArr in
  let* coords := copyTo (vals a2) 0 coords in
  let* t3 := subv tI (7 + sz2) (7 + sz2 + sz3) in
  let* (conn, _) := resizeFor t3 newArr in
  let* conn := copyTo (vals a1) 0 conn in
  let* S2 := subv tS 3 (3 + sz0) in
  let* coords := finishDbl S2 coords in
  let* S3 := subv tS (3 + sz0) (3 + sz0 + sz1) in
  let* conn := finishInt t3 S3 conn in
  Ok (Sgt (Head name desc unit time it ord) ty (Some coords) (Some conn)).
Definition sgt_pickle {D} (m : sgt D) : res (sgt D) :=
  let '(tD, tI, tS) := sgt_tiny m in let '(a1, a2) := sgt_serialize m in sgt_unserialize tD tI a1 a2 tS.
Definition sgt_transmit {D} (m : sgt D) : res (sgt D) :=
  let '(tD, tI, tS) := sgt_tiny m in
  let* (a1, a2) := sgt_resize tI newArr newArr in
  let '(b1, b2) := sgt_serialize m in
  let* a1 := recv (vals b1) a1 in let* a2 := recv (vals b2) a2 in
  sgt_unserialize tD tI a1 a2 tS.

(** ** Single geometric type with an index, MEDCoupling1GTUMesh.cxx 3803-3947. *)
Record dgt (D : Type) : Type := Dgt { d_head : head D; d_type : Z; d_coords : option (arr D); d_conn : option (arr Z); d_index : option (arr Z) }.
Arguments Dgt {D} _ _ _ _ _. Arguments d_head {D} _. Arguments d_type {D} _. Arguments d_coords {D} _. Arguments d_conn {D} _. Arguments d_index {D} _.
Definition dgt_tiny {D} (m : dgt D) : list D * list Z * list string :=
  let h := d_head m in
  let S2 := optS (d_coords m) in let S3 := optS (d_conn m) in let S4 := optS (d_index m) in
  let I2 := optI (d_coords m) in let I3 := optI (d_conn m) in let I4 := optI (d_index m) in
  ([h_time h], [d_type m; h_it h; h_ord h; zlen S2; zlen S3; zlen S4; zlen I2; zlen I3; zlen I4] ++ I2 ++ I3 ++ I4,
   [h_name h; h_desc h; h_unit h] ++ S2 ++ S3 ++ S4).
(** Aggregate, MEDCouplingMemArray.txx 8371-8397, on two arrays; the strings of the result are not used. *)
Definition aggregate2 {V} (p q : arr V) : res (arr V) :=
  throw_if negb (nComp q =? nComp p) >>>
  let* r := allocA (nTuples p + nTuples q) (nComp p) newArr in
  let* r := copyTo (vals p) 0 r in
  copyTo (vals q) (nElems p) r.
Definition dgt_resize {D} (tI : list Z) (a1 : arr Z) (a2 : arr D) : res (arr Z * arr D) :=
  let* n6 := rd tI 6 in let* n7 := rd tI 7 in let* n8 := rd tI 8 in
  let* t2 := subv tI 9 (9 + n6) in
  let* t1 := subv tI (9 + n6) (9 + n6 + n7) in
  let* t12 := subv tI (9 + n6 + n7) (9 + n6 + n7 + n8) in
  let* (p1, _) := resizeFor t1 (@newArr Z) in
  let* (p2, _) := resizeFor t12 (@newArr Z) in
  let* p2 := aggregate2 p1 p2 in
  let* (a2, _) := resizeFor t2 a2 in
  let* a1 := allocA (nElems p2) 1 a1 in
  Ok (a1, a2).
Definition dgt_serialize {D} (m : dgt D) : arr Z * arr D := (flat (optV (d_conn m) ++ optV (d_index m)), flat (optV (d_coords m))).
Definition dgt_unserialize {D} (tD : list D) (tI : list Z) (a1 : arr Z) (a2 : arr D) (tS : list string) : res (dgt D) :=
  let* ty := rd tI 0 in
  let* name := rd tS 0 in let* desc := rd tS 1 in let* unit := rd tS 2 in
  let* time := rd tD 0 in let* it := rd tI 1 in let* ord := rd tI 2 in
  let* sz0 := rd tI 3 in let* sz1 := rd tI 4 in let* sz2 := rd tI 5 in let* sz3 := rd tI 6 in let* sz4 := rd tI 7 in let* sz5 := rd tI 8 in
  let* t2 := subv tI 9 (9 + sz3) in
  let* (coords, _) := resizeFor t2 newArr in
  let* coords := copyTo (vals a2) 0 coords in
  let* t3 := subv tI (9 + sz3) (9 + sz3 + sz4) in
  let* (conn, _) := resizeFor t3 (@newArr Z) in
  let* v := subv (vals a1) 0 (nElems conn) in
  let* conn := copyTo v 0 conn in
  let* t4 := subv tI (9 + sz3 + sz4) (9 + sz3 + sz4 + sz5) in
  let* (index, _) := resizeFor t4 newArr in
  let* v := subv (vals a1) (nElems conn) (nElems a1) in
  let* index := copyTo v 0 index in
  let* S2 := subv tS 3 (3 + sz0) in
  let* coords := finishDbl S2 coords in
  let* S3 := subv tS (3 + sz0) (3 + sz0 + sz1) in
  let* conn := finishInt t3 S3 conn in
  let* S4 := subv tS (3 + sz0 + sz1) (3 + sz0 + sz1 + sz2) in
  let* index := finishInt t4 S4 index in
  Ok (Dgt (Head name desc unit time it ord) ty (Some coords) (Some conn) (Some index)).
Definition dgt_pickle {D} (m : dgt D) : res (dgt D) :=
  let '(tD, tI, tS) := dgt_tiny m in let '(a1, a2) := dgt_serialize m in dgt_unserialize tD tI a1 a2 tS.
Definition dgt_transmit {D} (m : dgt D) : res (dgt D) :=
  let '(tD, tI, tS) := dgt_tiny m in
  let* (a1, a2) := dgt_resize tI newArr newArr in
  let '(b1, b2) := dgt_serialize m in
  let* a1 := recv (vals b1) a1 in let* a2 := recv (vals b2) a2 in
  dgt_unserialize tD tI a1 a2 tS.

(** ** Curvilinear mesh, MEDCouplingCurveLinearMesh.cxx 1077-1164. *)
Record clm (D : Type) : Type := Clm { l_head : head D; l_struct : list Z; l_coords : option (arr D) }.
Arguments Clm {D} _ _ _. Arguments l_head {D} _. Arguments l_struct {D} _. Arguments l_coords {D} _.
Definition clm_tiny {D} (m : clm D) : list D * list Z * list string :=
  let h := l_head m in
  ([h_time h], [h_it h; h_ord h; zlen (l_struct m)] ++ l_struct m ++ optI (l_coords m), [h_name h; h_desc h; h_unit h] ++ optS (l_coords m)).
Definition clm_resize {D} (tI : list Z) (a1 : arr Z) (a2 : arr D) : res (arr Z * arr D) :=
  let* n := rd tI 2 in
  let* a1 := allocA n 1 a1 in
  let* t2 := subv tI (3 + n) (zlen tI) in
  let* (a2, _) := resizeFor t2 a2 in
  Ok (a1, a2).
Definition clm_serialize {D} (m : clm D) : arr Z * arr D := (flat (Some <$> l_struct m), flat (optV (l_coords m))).
Definition clm_unserialize {D} (tD : list D) (tI : list Z) (a1 : arr Z) (a2 : arr D) (tS : list string) : res (clm D) :=
  let* name := rd tS 0 in let* desc := rd tS 1 in let* unit := rd tS 2 in
  let* time := rd tD 0 in let* it := rd tI 0 in let* ord := rd tI 1 in
  let* sz := rd tI 2 in
  let* st := forZ 0 sz (fun i st => let* x := rd tI (3 + i) in Ok (st ++ [x])) [] in
  let* coords := (if sz + 3 <? zlen tI then
    let* t2 := subv tI (3 + sz) (zlen tI) in
    let* (coords, _) := resizeFor t2 newArr in
    let* coords := copyTo (vals a2) 0 coords in
    let* S2 := subv tS 3 (zlen tS) in
    let* coords := finishDbl S2 coords in
    Ok (Some coords)
  else Ok None) in
  Ok (Clm (Head name desc unit time it ord) st coords).
Definition clm_pickle {D} (m : clm D) : res (clm D) :=
  let '(tD, tI, tS) := clm_tiny m in let '(a1, a2) := clm_serialize m in clm_unserialize tD tI a1 a2 tS.
Definition clm_transmit {D} (m : clm D) : res (clm D) :=
  let '(tD, tI, tS) := clm_tiny m in
  let* (a1, a2) := clm_resize tI newArr newArr in
  let '(b1, b2) := clm_serialize m in
  let* a1 := recv (vals b1) a1 in let* a2 := recv (vals b2) a2 in
  clm_unserialize tD tI a1 a2 tS.

(** ** Cartesian mesh, MEDCouplingCMesh.cxx 984-1078.  The three axes are a list. *)
Record cmesh (D : Type) : Type := CMesh { c_head : head D; c_axes : list (option (arr D)) }.
Arguments CMesh {D} _ _. Arguments c_head {D} _. Arguments c_axes {D} _.
(** getInfoOnComponent(0), MEDCouplingMemArray.cxx: throws when there is no component. *)
Definition info0 {V} (a : arr V) : res string := match a_info a with [] => Throw | s :: _ => Ok s end.
Definition cmesh_tiny {D} (m : cmesh D) : res (list D * list Z * list string) :=
  let h := c_head m in
  let* (Is, Ss) := foldM (fun '(Is, Ss) o => match o with
    | Some a => let* s := info0 a in Ok (Is ++ [nTuples a], Ss ++ [s])
    | None => Ok (Is ++ [-1], Ss ++ [""]) end) (c_axes m) ([], [h_name h; h_desc h; h_unit h]) in
  Ok ([h_time h], Is ++ [h_it h; h_ord h], Ss).
Definition cmesh_resize {D} (tI : list Z) (a1 : arr Z) (a2 : arr D) : res (arr Z * arr D) :=
  let* a1 := allocA 0 1 a1 in
  let* sum := forZ 0 3 (fun i sum => let* n := rd tI i in Ok (if n =? -1 then sum else sum + n)) 0 in
  let* a2 := allocA sum 1 a2 in
  Ok (a1, a2).
(** The sum of the sizes is that of the ranges copied. *)
Definition cmesh_serialize {D} (m : cmesh D) : res (arr Z * arr D) :=
  let* l := foldM (fun l o => match o with
    | Some a => let* v := subv (vals a) 0 (nTuples a) in Ok (l ++ v)
    | None => Ok l end) (c_axes m) [] in
  Ok (flat [], flat l).
Definition cmesh_unserialize {D} (tD : list D) (tI : list Z) (a1 : arr Z) (a2 : arr D) (tS : list string) : res (cmesh D) :=
  let* name := rd tS 0 in let* desc := rd tS 1 in let* unit := rd tS 2 in
  let* (axes, _) := forZ 0 3 (fun i '(axes, pos) =>
    let* n := rd tI i in
    if n =? -1 then Ok (axes ++ [None], pos) else
    let* a := allocA n 1 newArr in
    let* s := rd tS (i + 3) in
    let* a := setInfo 0 s a in
    let* v := subv (vals a2) pos (pos + n) in
    let* a := copyTo v 0 a in
    Ok (axes ++ [Some a], pos + n)) ([], 0) in
  let* time := rd tD 0 in let* it := rd tI 3 in let* ord := rd tI 4 in
  Ok (CMesh (Head name desc unit time it ord) axes).
Definition cmesh_pickle {D} (m : cmesh D) : res (cmesh D) :=
  let* (tD, tI, tS) := cmesh_tiny m in let* (a1, a2) := cmesh_serialize m in cmesh_unserialize tD tI a1 a2 tS.
Definition cmesh_transmit {D} (m : cmesh D) : res (cmesh D) :=
  let* (tD, tI, tS) := cmesh_tiny m in
  let* (a1, a2) := cmesh_resize tI newArr newArr in
  let* (b1, b2) := cmesh_serialize m in
  let* a1 := recv (vals b1) a1 in let* a2 := recv (vals b2) a2 in
  cmesh_unserialize tD tI a1 a2 tS.

(** ** Image mesh, MEDCouplingIMesh.cxx 1584-1652; the three tables of the class have three entries. *)
Record imesh (D : Type) : Type := IMesh { i_head : head D; i_axis : string; i_dim : Z; i_struct : Z * Z * Z; i_dxyz : D * D * D; i_org : D * D * D }.
Arguments IMesh {D} _ _ _ _ _ _. Arguments i_head {D} _. Arguments i_axis {D} _. Arguments i_dim {D} _. Arguments i_struct {D} _.
Arguments i_dxyz {D} _. Arguments i_org {D} _.
Definition l3 {T} (x : T * T * T) : list T := let '(a, b, c) := x in [a; b; c].
Definition rd3 {T} (l : list T) (p : Z) : res (T * T * T) := let* a := rd l p in let* b := rd l (p + 1) in let* c := rd l (p + 2) in Ok (a, b, c).
Definition imesh_tiny {D} (m : imesh D) : list D * list Z * list string :=
  let h := i_head m in
  ([h_time h] ++ l3 (i_dxyz m) ++ l3 (i_org m), [h_it h; h_ord h; i_dim m] ++ l3 (i_struct m), [h_name h; h_desc h; h_unit h; i_axis m]).
Definition imesh_unserialize {D} (tD : list D) (tI : list Z) (a1 : arr Z) (a2 : arr D) (tS : list string) : res (imesh D) :=
  let* name := rd tS 0 in let* desc := rd tS 1 in let* unit := rd tS 2 in let* axis := rd tS 3 in
  let* time := rd tD 0 in let* it := rd tI 0 in let* ord := rd tI 1 in
  let* dim := rd tI 2 in let* st := rd3 tI 3 in let* dx := rd3 tD 1 in let* org := rd3 tD 4 in
  Ok (IMesh (Head name desc unit time it ord) axis dim st dx org).
Definition imesh_pickle {D} (m : imesh D) : res (imesh D) :=
  let '(tD, tI, tS) := imesh_tiny m in imesh_unserialize tD tI (flat []) (flat []) tS.
Definition imesh_transmit {D} (m : imesh D) : res (imesh D) :=
  let '(tD, tI, tS) := imesh_tiny m in
  let* a1 := allocA 0 1 newArr in let* a2 := allocA 0 1 newArr in
  let* a1 := recv [] a1 in let* a2 := recv [] a2 in
  imesh_unserialize tD tI a1 a2 tS.

(** ** Unstructured mesh, MEDCouplingPointSet.cxx 936-1043 and MEDCouplingUMesh.cxx 4223-4313.
    Simplification: tinyInfoD, to which the code appends, is empty at the call. *)
Record umesh (D : Type) : Type := UMesh { u_head : head D; u_dim : Z; u_types : list Z; u_coords : option (arr D); u_conn : option (arr Z); u_index : option (arr Z) }.
Arguments UMesh {D} _ _ _ _ _ _. Arguments u_head {D} _. Arguments u_dim {D} _. Arguments u_types {D} _. Arguments u_coords {D} _.
Arguments u_conn {D} _. Arguments u_index {D} _.
(** MEDCouplingUMesh.cxx 4200-4205 and 4183-4191. *)
Definition meshDim {D} (m : umesh D) : res Z := throw_if u_dim m <? -1 >>> Ok (u_dim m).
Definition nbCells {D} (m : umesh D) : res Z :=
  match u_index m with Some ix => Ok (nTuples ix - 1) | None => throw_if negb (u_dim m =? -1) >>> Ok 1 end.
(** UNSTRUCTURED = 5, MEDCouplingMesh.hxx. *)
Definition umesh_tiny {D} (m : umesh D) : res (list D * list Z * list string) :=
  let h := u_head m in
  let '(Is, Ss) := match u_coords m with
    | Some c => ([5; nComp c; nTuples c; h_it h; h_ord h], [h_name h; h_desc h; a_name c; h_unit h] ++ a_info c)
    | None => ([5; -1; -1; h_it h; h_ord h], [h_name h; h_desc h; h_unit h])
    end in
  let* dim := meshDim m in
  let* n := nbCells m in
  Ok ([h_time h], Is ++ [dim; n; match u_conn m with Some c => nElems c | None => -1 end], Ss).
(** The third result is the size given to littleStrings. *)
Definition umesh_resize {D} (tI : list Z) (a1 : arr Z) (a2 : arr D) : res (arr Z * arr D * Z) :=
  let* nn := rd tI 2 in let* sd := rd tI 1 in
  let* (a2, ns) := (if (0 <=? nn) && (1 <=? sd) then let* a2 := allocA nn sd a2 in Ok (a2, sd + 4) else Ok (a2, 3)) in
  let* dim := rd tI 5 in
  let* a1 := (if dim =? -1 then Ok a1 else let* len := rd tI 7 in let* n := rd tI 6 in allocA (len + n + 1) 1 a1) in
  Ok (a1, a2, ns).
Definition umesh_serialize {D} (m : umesh D) : res (option (arr Z) * option (arr D)) :=
  let* dim := meshDim m in
  let* a1 := (if -1 <? dim then
    deref (u_conn m) (fun c => let* n := nbCells m in deref (u_index m) (fun ix =>
      let* l := subv (vals ix) 0 (n + 1) in Ok (Some (flat (l ++ vals c)))))
  else Ok None) in
  Ok (a1, u_coords m).
(** setConnectivity (MEDCouplingUMesh.cxx 4133-4140) calls ComputeAllTypesInternal, MEDCouplingUMesh_internal.cxx 2333-2348. *)
Definition computeTypes (conn index : arr Z) : res (list Z) :=
  let n := nElems index - 1 in
  if 0 <? n then forZ 0 n (fun i ty => let* p := rdc (vals index) i in let* t := rdc (vals conn) p in Ok (sins t ty)) [] else Ok [].
Definition umesh_unserialize {D} (tD : list D) (tI : list Z) (a1 : option (arr Z)) (a2 : option (arr D)) (tS : list string) : res (umesh D) :=
  let* nn := rd tI 2 in let* sd := rd tI 1 in
  let* (coords, hd) := (if (0 <=? nn) && (1 <=? sd) then
    let* name := rd tS 0 in let* desc := rd tS 1 in
    deref a2 (fun a2 =>
    let* cname := rd tS 2 in let a2 := setName cname a2 in
    let* unit := rd tS 3 in
    let* a2 := forZ 0 sd (fun i a2 => let* s := rd tS (i + 4) in setInfo i s a2) a2 in
    let* time := rd tD 0 in let* it := rd tI 3 in let* ord := rd tI 4 in
    Ok (Some a2, Head name desc unit time it ord))
  else
    let* name := rd tS 0 in let* desc := rd tS 1 in let* unit := rd tS 2 in
    let* time := rd tD 0 in let* it := rd tI 3 in let* ord := rd tI 4 in
    Ok (None, Head name desc unit time it ord)) in
  let* dim := rd tI 5 in
  throw_if (dim <? -1) || (3 <? dim) >>>
  let* len := rd tI 7 in
  if len =? -1 then Ok (UMesh hd dim [] coords None None) else
  deref a1 (fun a1 =>
  let* n := rd tI 6 in
  let* index := allocA (n + 1) 1 newArr in
  let* v := subv (vals a1) 0 (n + 1) in
  let* index := copyTo v 0 index in
  let* conn := allocA len 1 newArr in
  let* v := subv (vals a1) (n + 1) (n + 1 + len) in
  let* conn := copyTo v 0 conn in
  let* types := computeTypes conn index in
  Ok (UMesh hd dim types coords (Some conn) (Some index))).
Definition umesh_pickle {D} (m : umesh D) : res (umesh D) :=
  let* (tD, tI, tS) := umesh_tiny m in let* (a1, a2) := umesh_serialize m in umesh_unserialize tD tI a1 a2 tS.
Definition recvO {V} (src : option (arr V)) (a : arr V) : res (arr V) := match src with Some b => recv (vals b) a | None => Ok a end.
Definition umesh_transmit {D} (m : umesh D) : res (umesh D) :=
  let* (tD, tI, tS) := umesh_tiny m in
  let* (a1, a2, _) := umesh_resize tI newArr newArr in
  let* (b1, b2) := umesh_serialize m in
  let* a1 := recvO b1 a1 in let* a2 := recvO b2 a2 in
  umesh_unserialize tD tI (Some a1) (Some a2) tS.

(** ** Extruded mesh, MEDCouplingMappedExtrudedMesh.cxx 998-1140; [zero] is 0.0.  The head of the new instance is that of the constructor. *)
Record emesh (D : Type) : Type := EMesh { e_head : head D; e_2D : umesh D; e_1D : umesh D; e_ids : arr Z; e_cell : Z }.
Arguments EMesh {D} _ _ _ _ _. Arguments e_head {D} _. Arguments e_2D {D} _. Arguments e_1D {D} _. Arguments e_ids {D} _. Arguments e_cell {D} _.
Definition emesh_tiny {D} (m : emesh D) : res (list D * list Z * list string) :=
  let* (_, I1, S1) := umesh_tiny (e_2D m) in
  let* (_, I2, S2) := umesh_tiny (e_1D m) in
  Ok ([], I1 ++ I2 ++ [e_cell m; zlen I1; nElems (e_ids m)], S1 ++ S2 ++ [h_name (e_head m); h_desc (e_head m)]).
Definition emesh_resize {D} (tI : list Z) (a1 : arr Z) (a2 : arr D) : res (arr Z * arr D) :=
  let sz := zlen tI in
  let* sz1 := rd tI (sz - 2) in
  let* t1 := subv tI 0 sz1 in
  let* t2 := subv tI sz1 (sz - 3) in
  let* (x1, y1, _) := @umesh_resize D t1 newArr newArr in
  let* (x2, y2, _) := @umesh_resize D t2 newArr newArr in
  let* n := rd tI (sz - 1) in
  let* a1 := allocA (nElems x1 + nElems x2 + n) 1 a1 in
  let* a2 := allocA (nElems y1 + nElems y2) 1 a2 in
  Ok (a1, a2).
Definition emesh_serialize {D} (m : emesh D) : res (arr Z * arr D) :=
  let* (x1, y1) := umesh_serialize (e_2D m) in
  let* (x2, y2) := umesh_serialize (e_1D m) in
  deref x1 (fun x1 => deref x2 (fun x2 => deref y1 (fun y1 => deref y2 (fun y2 =>
  Ok (flat (vals x1 ++ vals x2 ++ vals (e_ids m)), flat (vals y1 ++ vals y2)))))).
Definition emesh_unserialize {D} (zero : D) (tI : list Z) (a1 : arr Z) (a2 : arr D) (tS : list string) : res (emesh D) :=
  let ns := zlen tS in
  let* name := rd tS (ns - 2) in let* desc := rd tS (ns - 1) in
  let sz := zlen tI in
  let* sz1 := rd tI (sz - 2) in let* cell := rd tI (sz - 3) in
  let* t1 := subv tI 0 sz1 in
  let* t2 := subv tI sz1 (sz - 3) in
  let* (x1, y1, n1) := @umesh_resize D t1 newArr newArr in
  let* v := subv (vals a2) 0 (nElems y1) in let* y1 := copyTo v 0 y1 in
  let* v := subv (vals a1) 0 (nElems x1) in let* x1 := copyTo v 0 x1 in
  let* S1 := subv tS 0 n1 in
  let* m2 := umesh_unserialize [zero] t1 (Some x1) (Some y1) S1 in
  let* S2 := subv tS n1 (ns - 2) in
  let* (x2, y2, _) := @umesh_resize D t2 newArr newArr in
  let* v := subv (vals a2) (nElems y1) (nElems y1 + nElems y2) in let* y2 := copyTo v 0 y2 in
  let* v := subv (vals a1) (nElems x1) (nElems x1 + nElems x2) in let* x2 := copyTo v 0 x2 in
  let* m1 := umesh_unserialize [zero] t2 (Some x2) (Some y2) S2 in
  let n := nElems a1 - (nElems x1 + nElems x2) in
  let* ids := allocA n 1 newArr in
  let* v := subv (vals a1) (nElems x1 + nElems x2) (nElems x1 + nElems x2 + n) in let* ids := copyTo v 0 ids in
  Ok (EMesh (Head name desc "" zero (-1) (-1)) m2 m1 ids cell).
Definition emesh_pickle {D} (zero : D) (m : emesh D) : res (emesh D) :=
  let* (_, tI, tS) := emesh_tiny m in let* (a1, a2) := emesh_serialize m in emesh_unserialize zero tI a1 a2 tS.
Definition emesh_transmit {D} (zero : D) (m : emesh D) : res (emesh D) :=
  let* (_, tI, tS) := emesh_tiny m in
  let* (a1, a2) := emesh_resize tI newArr newArr in
  let* (b1, b2) := emesh_serialize m in
  let* a1 := recv (vals b1) a1 in let* a2 := recv (vals b2) a2 in
  emesh_unserialize zero tI a1 a2 tS.
