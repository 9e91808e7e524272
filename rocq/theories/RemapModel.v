(** The remapper: from the crude matrix to the values of the transferred field; MEDCouplingRemapper.cxx.
    Simplifications: numbers of type double are rational numbers (every finite double is one) and the operations on them are exact;
    a division by zero, which gives an infinity or a NaN, leaves the model (outcome [UB]); ids are unbounded integers;
    the pointers to fields are not null and the source and the target do not share an array;
    of a field are kept its discretization, its nature, the number of tuples that its mesh requires, the dimension and the measures of its mesh and its array. *)
From Coq Require Import QArith Qcanon Qcabs.
From Verif Require Import Base.
Local Open Scope Z_scope.

(** std::map<mcIdType,double>: the bindings in the order of the keys. *)
Definition row : Type := list (Z * Qc).
(** m[k] = v. *)
Fixpoint mput {V} (k : Z) (v : V) (m : list (Z * V)) : list (Z * V) :=
  match m with
  | [] => [(k, v)]
  | (k', v') :: m' => if k <? k' then (k, v) :: m else if k =? k' then (k, v) :: m' else (k', v') :: mput k v m'
  end.
Fixpoint mfind {V} (k : Z) (m : list (Z * V)) : option V :=
  match m with [] => None | (k', v') :: m' => if k =? k' then Some v' else mfind k m' end.
(** m[k], whose value is 0 where there is none. *)
Definition mget (k : Z) (m : row) : Qc := match mfind k m with Some v => v | None => 0%Qc end.
(** m[k] += v. *)
Definition mplus (k : Z) (v : Qc) (m : row) : row := mput k (mget k m + v)%Qc m.
(** std::vector< std::map<mcIdType,double> >, and M[i][k] = v. *)
Definition matrix : Type := list row.
Definition vput (M : matrix) (i k : Z) (v : Qc) : res matrix := let* r := rd M i in wr M i (mput k v r).
(** Division of two numbers of type double. *)
Definition qdiv (x y : Qc) : res Qc := if Qc_eq_dec y 0%Qc then UB else Ok (x / y)%Qc.
(** std::fill(p + a, p + b, v). *)
Definition fillc {A} (p : list (option A)) (a b : Z) (v : A) : res (list (option A)) := forZ a b (fun k p => wrc p k v) p.
(** The loop on the rows of a matrix with their rank. *)
Definition rows {S} (M : matrix) (f : Z -> row -> S -> res S) (s : S) : res S :=
  forZ 0 (zlen M) (fun idx s => let* r := rd M idx in f idx r s) s.

(** MEDCouplingNatureOfFieldEnum 28-34. *)
Inductive nature : Type := NoNature | IntensiveMaximum | ExtensiveMaximum | ExtensiveConservation | IntensiveConservation.
Global Instance nature_eq_dec : EqDecision nature. Proof. solve_decision. Defined.
(** A field: discretization, nature, number of tuples required by the mesh, dimension and measures of the mesh, array (number of components and values). *)
Record field : Type := FL { fl_disc : Z; fl_nature : nature; fl_expected : Z; fl_dim : Z; fl_measure : list Qc; fl_arr : option (Z * list (option Qc)) }.
(** The field templates of the preparation: discretization and number of tuples. *)
Record template : Type := FT { ft_disc : Z; ft_expected : Z }.
(** MEDCouplingRemapper.hxx 155-163. The date of the denominators is left out: it stays null, hence the denominators are computed at each transfer. *)
Record remapper : Type := RM { rm_src : option template; rm_trg : option template; rm_mat : matrix; rm_deno : matrix; rm_denoR : matrix }.

(** ReverseMatrix, 1566-1579. *)
Definition ReverseMatrix (M : matrix) (nbCols : Z) : res matrix :=
  rows M (fun id r out => foldM (fun out '(j, v) => vput out j id v) r out) (replicate (Z.to_nat nbCols) []).

(** ComputeRowSumAndColSum, 1581-1609. *)
Definition ComputeRowSumAndColSum (M deno denoR : matrix) : res (matrix * matrix) :=
  let* (values, deno) := rows M (fun idx r '(values, deno) =>
    let '(sum, values) := fold_left (fun '(sum, values) '(j, v) => ((sum + v)%Qc, mplus j v values)) r (0%Qc, values) in
    let* deno := foldM (fun deno '(j, _) => vput deno idx j sum) r deno in
    Ok (values, deno)) ([], deno) in
  let* denoR := rows M (fun idx r denoR => foldM (fun denoR '(j, _) => vput denoR j idx (mget j values)) r denoR) denoR in
  Ok (deno, denoR).
(** ComputeColSumAndRowSum, 1611-1639. *)
Definition ComputeColSumAndRowSum (M deno denoR : matrix) : res (matrix * matrix) :=
  let* (values, denoR) := rows M (fun idx r '(values, denoR) =>
    let '(sum, values) := fold_left (fun '(sum, values) '(j, v) => ((sum + v)%Qc, mplus j v values)) r (0%Qc, values) in
    let* denoR := foldM (fun denoR '(j, _) => vput denoR j idx sum) r denoR in
    Ok (values, denoR)) ([], denoR) in
  let* deno := rows M (fun idx r deno => foldM (fun deno '(j, _) => vput deno idx j (mget j values)) r deno) deno in
  Ok (deno, denoR).

(** std::accumulate(p, p + n, 0.). *)
Definition accumulate (l : list Qc) : Qc := fold_left Qcplus l 0%Qc.
(** 1419-1428 and 1454-1463: the measure of the side of dimension -1; [a] and [b] are the arrays called deno and denoR. *)
Definition minusOne (trgDim srcDim : Z) (a b : list Qc) : res (list Qc * list Qc) :=
  let* b := (if trgDim =? -1 then wr b 0 (accumulate a) else Ok b) in
  let* a := (if srcDim =? -1 then wr a 0 (accumulate b) else Ok a) in
  Ok (a, b).
(** computeDenoFromScratch, 1398-1483; computeDeno, 1385-1396, always calls it. *)
Definition computeDeno (M deno denoR : matrix) (nat : nature) (src trg : field) : res (matrix * matrix) :=
  match nat with
  | IntensiveMaximum => ComputeRowSumAndColSum M deno denoR
  | ExtensiveMaximum =>
      let* (a, b) := minusOne (fl_dim trg) (fl_dim src) (fl_measure src) (fl_measure trg) in
      rows M (fun idx r s => foldM (fun '(deno, denoR) '(j, _) =>
        let* x := rd a j in let* deno := vput deno idx j x in
        let* y := rd b idx in let* denoR := vput denoR j idx y in Ok (deno, denoR)) r s) (deno, denoR)
  | ExtensiveConservation => ComputeColSumAndRowSum M deno denoR
  | IntensiveConservation =>
      let* (a, b) := minusOne (fl_dim trg) (fl_dim src) (fl_measure trg) (fl_measure src) in
      rows M (fun idx r s => foldM (fun '(deno, denoR) '(j, _) =>
        let* x := rd a idx in let* deno := vput deno idx j x in
        let* y := rd b j in let* denoR := vput denoR j idx y in Ok (deno, denoR)) r s) (deno, denoR)
  | NoNature => Throw
  end.

(** The two calls of std::transform, 1508-1519 and 1543-1556: the tuple [i] of the input times [q] is added to the tuple [o] of the result. *)
Definition addScaled (input : list (option Qc)) (nc i o : Z) (q : Qc) (out : list (option Qc)) : res (list (option Qc)) :=
  forZ 0 nc (fun c out => let* x := rdc input (i * nc + c) in let* y := rdc out (o * nc + c) in wrc out (o * nc + c) (x * q + y)%Qc) out.
(** computeProduct, 1485-1523: the row of denominators is read by an iterator of its own. *)
Definition computeProduct (M deno : matrix) (input : list (option Qc)) (nc : Z) (isDft : bool) (dft : Qc) (out : list (option Qc)) : res (list (option Qc)) :=
  rows M (fun idx r out =>
    match r with
    | [] => if isDft then fillc out (idx * nc) ((idx + 1) * nc) dft else Ok out
    | _ =>
      let* out := fillc out (idx * nc) ((idx + 1) * nc) 0%Qc in
      let* dn := rd deno idx in
      let* (out, _) := foldM (fun '(out, it) '(j, v) =>
        match it with
        | [] => UB
        | (_, d) :: it => let* q := qdiv v d in let* out := addScaled input nc j idx q out in Ok (out, it)
        end) r (out, dn) in
      Ok out
    end) out.
(** computeReverseProduct, 1525-1564. *)
Definition computeReverseProduct (M denoR : matrix) (input : list (option Qc)) (nc : Z) (dft : Qc) (out : list (option Qc)) : res (list (option Qc)) :=
  let* out := fillc out 0 (nc * zlen denoR) 0%Qc in
  let* (out, reached) := rows M (fun idx r s => foldM (fun '(out, reached) '(j, v) =>
    let* reached := wr reached j true in
    let* dn := rd denoR j in
    let* q := qdiv v (mget idx dn) in
    let* out := addScaled input nc idx j q out in
    Ok (out, reached)) r s) (out, replicate (length denoR) false) in
  forZ 0 (zlen reached) (fun idx out =>
    let* b := rd reached idx in if b then Ok out else fillc out (idx * nc) ((idx + 1) * nc) dft) out.

(** checkConsistencyLight of a field on the cells or on the nodes: it has an array, of the number of tuples that the mesh requires. *)
Definition tuples (nc : Z) (l : list (option Qc)) : Z := if nc =? 0 then 0 else zlen l / nc.
Definition consistent (f : field) : bool :=
  match fl_arr f with None => false | Some (nc, l) => tuples nc l =? fl_expected f end.
Definition withArr (f : field) (nc : Z) (l : list (option Qc)) : field := FL (fl_disc f) (fl_nature f) (fl_expected f) (fl_dim f) (fl_measure f) (Some (nc, l)).
(** What a call does: its outcome, the remapper and the written field after it. *)
Definition effect : Type := res unit * (remapper * field).
Definition check (bad : bool) (r : remapper) (f : field) (k : effect) : effect := if bad then (Throw, (r, f)) else k.
(** transferUnderground, 1336-1383. *)
Definition transferUnderground (r : remapper) (src trg : field) (isDft : bool) (dft : Qc) : effect :=
  match fl_arr src, rm_src r, rm_trg r with
  | Some (nc, input), Some s, Some t =>
    check (negb (consistent src)) r trg (
    check (negb (ft_disc s =? fl_disc src)) r trg (
    check (negb (ft_disc t =? fl_disc trg)) r trg (
    check (bool_decide (fl_nature src <> fl_nature trg)) r trg (
    check (negb (fl_expected src =? ft_expected s)) r trg (
    let go trg out :=
      match computeDeno (rm_mat r) (rm_deno r) (rm_denoR r) (fl_nature src) src trg with
      | Ok (deno, denoR) =>
        let r' := RM (rm_src r) (rm_trg r) (rm_mat r) deno denoR in
        match computeProduct (rm_mat r) deno input nc isDft dft out with
        | Ok out => (Ok tt, (r', withArr trg nc out))
        | Throw => (Throw, (r', trg)) | UB => (UB, (r', trg)) | Fuel => (Fuel, (r', trg))
        end
      | Throw => (Throw, (r, trg)) | UB => (UB, (r, trg)) | Fuel => (Fuel, (r, trg))
      end in
    match fl_arr trg with
    | Some (nc', out) => check (negb (consistent trg)) r trg (check (negb (nc =? nc')) r trg (go trg out))
    | None => check (negb isDft) r trg (let out := malloc Qc (nc * fl_expected trg) in go (withArr trg nc out) out)
    end)))))
  | _, _, _ => (Throw, (r, trg))
  end.
(** transfer, 240-248. *)
Definition transfer (r : remapper) (src trg : field) (dft : Qc) : effect := transferUnderground r src trg true dft.
(** partialTransfer, 261-267; the default value is not used. *)
Definition partialTransfer (r : remapper) (src trg : field) : effect := transferUnderground r src trg false 0%Qc.
(** reverseTransfer, 269-312: [src] is the written field. *)
Definition reverseTransfer (r : remapper) (src trg : field) (dft : Qc) : effect :=
  match fl_arr trg, rm_src r, rm_trg r with
  | Some (nc, input), Some s, Some t =>
    check (negb (consistent trg)) r src (
    check (negb (ft_disc s =? fl_disc src)) r src (
    check (negb (ft_disc t =? fl_disc trg)) r src (
    check (bool_decide (fl_nature src <> fl_nature trg)) r src (
    check (negb (fl_expected trg =? ft_expected t)) r src (
    let go src out :=
      match computeDeno (rm_mat r) (rm_deno r) (rm_denoR r) (fl_nature src) src trg with
      | Ok (deno, denoR) =>
        let r' := RM (rm_src r) (rm_trg r) (rm_mat r) deno denoR in
        match computeReverseProduct (rm_mat r) denoR input nc dft out with
        | Ok out => (Ok tt, (r', withArr src nc out))
        | Throw => (Throw, (r', src)) | UB => (UB, (r', src)) | Fuel => (Fuel, (r', src))
        end
      | Throw => (Throw, (r, src)) | UB => (UB, (r, src)) | Fuel => (Fuel, (r, src))
      end in
    match fl_arr src with
    | Some (nc', out) => check (negb (consistent src)) r src (check (negb (nc =? nc')) r src (go src out))
    | None => let out := malloc Qc (nc * fl_expected src) in go (withArr src nc out) out
    end)))))
  | _, _, _ => (Throw, (r, src))
  end.

(** setCrudeMatrixEx, 119-149, with restartUsing, 1321-1333, releaseData, 1309-1319, and synchronizeSizeOfSideMatricesAfterMatrixComputation, 1240-1248. *)
Definition setCrudeMatrix (src trg : template) (M : matrix) : res unit * remapper :=
  let empty := RM (Some src) (Some trg) [] [] [] in
  if negb (zlen M =? ft_expected trg) then (Throw, empty)
  else if existsb (existsb (fun '(j, _) => (j <? 0) || (ft_expected src <=? j))) M then (Throw, empty)
  else (Ok tt, RM (Some src) (Some trg) M (replicate (length M) []) (replicate (Z.to_nat (ft_expected src)) [])).
(** nullifiedTinyCoeffInCrudeMatrixAbs, 1719-1742: the number of coefficients taken away. *)
Definition small (eps v : Qc) : bool := negb (bool_decide (eps < Qcabs v)%Qc).
Definition nullifiedTinyCoeffInCrudeMatrixAbs (r : remapper) (eps : Qc) : Z * remapper :=
  let n := fold_left (fun n row => fold_left (fun n '(_, v) => if small eps v then n + 1 else n) row n) (rm_mat r) 0 in
  let M' := map (fun row => fold_left (fun new '(j, v) => if small eps v then new else mput j v new) row []) (rm_mat r) in
  (n, if 0 <? n then RM (rm_src r) (rm_trg r) M' (rm_deno r) (rm_denoR r) else r).
(** getMaxValueInCrudeMatrix, 1771-1779. *)
Definition getMaxValueInCrudeMatrix (r : remapper) : Qc :=
  fold_left (fun m row => fold_left (fun m '(_, v) => if bool_decide (m < Qcabs v)%Qc then Qcabs v else m) row m) (rm_mat r) 0%Qc.
(** nullifiedTinyCoeffInCrudeMatrix, 1757-1764. *)
Definition nullifiedTinyCoeffInCrudeMatrix (r : remapper) (scale : Qc) : Z * remapper :=
  let m := getMaxValueInCrudeMatrix r in
  if Qc_eq_dec m 0%Qc then (-1, r) else nullifiedTinyCoeffInCrudeMatrixAbs r (scale * m)%Qc.

(** buildFinalInterpolationMatrixByConvolution, 1641-1674; the matrix is empty before the call. *)
Definition convolution (m1D m2D : matrix) (corrSrc : list Z) (nb2DSrc : Z) (corrTrg : list Z) : res matrix :=
  let nb2DTrg := zlen m2D in
  rows m2D (fun id2R r2 M => foldM (fun M '(j2, v2) =>
    rows m1D (fun id1R r1 M => foldM (fun M '(j1, v1) =>
      let* t := rd corrTrg (id1R * nb2DTrg + id2R) in
      let* s := rd corrSrc (j1 * nb2DSrc + j2) in
      vput M t s (v1 * v2)%Qc) r1 M) M) r2 M) (replicate (Z.to_nat (nb2DTrg * zlen m1D)) []).
