(** What a transfer must compute, in terms of the coefficients of the crude matrix and of the values of the fields. *)
From Coq Require Import QArith Qcanon Qcabs.
From Verif Require Import Base RemapModel.
Local Open Scope Z_scope.

Definition sumQ (l : list Qc) : Qc := foldr Qcplus 0%Qc l.
Definition sumZ (n : Z) (g : Z -> Qc) : Qc := sumQ (map g (seqZ 0 n)).
(** The coefficients (row, column, value) of a matrix that is given by its rows. *)
Definition coeffs (M : matrix) : list (Z * Z * Qc) :=
  concat (imap (fun i r => map (fun '(j, v) => (Z.of_nat i, j, v)) r) M).
(** A row is a map: keys in increasing order, and the columns exist. *)
Definition is_map (r : row) : Prop := StronglySorted Z.lt r.*1.
Definition is_matrix (M : matrix) : Prop := Forall is_map M.
Definition columns_below (n : Z) (M : matrix) : Prop := forall i j v, (i, j, v) ∈ coeffs M -> 0 <= j < n.
(** The sum over the coefficients of an expression. *)
Definition total (M : matrix) (g : Z -> Z -> Qc -> Qc) : Qc := sumQ (map (fun '(i, j, v) => g i j v) (coeffs M)).
Definition row_sum (M : matrix) (i : Z) : Qc := total M (fun i' _ v => if i' =? i then v else 0%Qc).
Definition col_sum (M : matrix) (j : Z) : Qc := total M (fun _ j' v => if j' =? j then v else 0%Qc).
(** The entity of the target, of the source, has a coefficient. *)
Definition row_reached (M : matrix) (i : Z) : Prop := exists j v, (i, j, v) ∈ coeffs M.
Definition col_reached (M : matrix) (j : Z) : Prop := exists i v, (i, j, v) ∈ coeffs M.

(** The value of a field for the entity [i] and the component [c]; the measure of the entity [i]: where the mesh is of dimension -1 its only entity covers the other mesh. *)
Definition value (f : field) (i c : Z) : option Qc :=
  match fl_arr f with Some (nc, l) => if (0 <=? c) && (c <? nc) then default None (l @ (i * nc + c)) else None | None => None end.
Definition components (f : field) : option Z := fst <$> fl_arr f.
Definition measure (f other : field) (i : Z) : Qc :=
  if fl_dim f =? -1 then sumQ (fl_measure other) else default 0%Qc (fl_measure f @ i).
(** What divides the coefficient (i, j): by the nature of the field, for a transfer and for a reverse transfer. *)
Definition divisor (M : matrix) (src trg : field) (i j : Z) : Qc :=
  match fl_nature src with
  | IntensiveMaximum => row_sum M i
  | ExtensiveMaximum => measure src trg j
  | ExtensiveConservation => col_sum M j
  | IntensiveConservation => measure trg src i
  | NoNature => 0%Qc
  end.
Definition rdivisor (M : matrix) (src trg : field) (i j : Z) : Qc :=
  match fl_nature trg with
  | IntensiveMaximum => col_sum M j
  | ExtensiveMaximum => measure trg src i
  | ExtensiveConservation => row_sum M i
  | IntensiveConservation => measure src trg j
  | NoNature => 0%Qc
  end.

(** A field as its mesh requires it: one measure by entity (one entity in dimension -1); a complete array. *)
Definition mesh_ok (f : field) : Prop := 0 <= fl_expected f /\ zlen (fl_measure f) = fl_expected f /\ (fl_dim f = -1 -> fl_expected f = 1).
Definition array_shaped (f : field) : Prop :=
  forall nc l, fl_arr f = Some (nc, l) -> 0 < nc /\ zlen l = nc * fl_expected f.
Definition valued (f : field) : Prop :=
  exists nc l, fl_arr f = Some (nc, l) /\ 0 < nc /\ zlen l = nc * fl_expected f /\ Forall (fun x => x <> None) l.
(** The two fields agree with the preparation. *)
Definition agree (r : remapper) (src trg : field) : Prop :=
  fl_nature src = fl_nature trg /\
  exists s t, rm_src r = Some s /\ rm_trg r = Some t /\ ft_disc s = fl_disc src /\ ft_disc t = fl_disc trg /\
    ft_expected s = fl_expected src /\ ft_expected t = fl_expected trg.

(** The last matrix given was accepted: getCrudeMatrix has a row by entity of the target, getNumberOfColsOfMatrix is the number of entities of the source. *)
Definition complete (r : remapper) (src trg : field) : Prop := zlen (rm_mat r) = fl_expected trg /\ zlen (rm_denoR r) = fl_expected src.
(** The target has no array yet, or an array of the same number of components. *)
Definition receives (trg src : field) : Prop := array_shaped trg /\ (fl_arr trg = None \/ components trg = components src).
(** One of the two meshes at most is of dimension -1. *)
Definition one_point_at_most (src trg : field) : Prop := ~ (fl_dim src = -1 /\ fl_dim trg = -1).
(** The value of a field that has one. *)
Definition val (f : field) (i c : Z) : Qc := default 0%Qc (value f i c).
(** What is expected at the entity [i] of the target, of the source. *)
Definition interpolated (M : matrix) (src trg : field) (i c : Z) : Qc :=
  total M (fun i' j v => if i' =? i then v / divisor M src trg i j * val src j c else 0)%Qc.
Definition rinterpolated (M : matrix) (src trg : field) (j c : Z) : Qc :=
  total M (fun i j' v => if j' =? j then v / rdivisor M src trg i j * val trg i c else 0)%Qc.
(** No division by zero. *)
Definition defined (M : matrix) (src trg : field) : Prop := forall i j v, (i, j, v) ∈ coeffs M -> divisor M src trg i j <> 0%Qc.
Definition rdefined (M : matrix) (src trg : field) : Prop := forall i j v, (i, j, v) ∈ coeffs M -> rdivisor M src trg i j <> 0%Qc.
(** The transfer between the two fields has a meaning; [IntensiveConservation] on a mesh of dimension -1 is left out. *)
Definition ready (r : remapper) (src trg : field) : Prop :=
  agree r src trg /\ complete r src trg /\ fl_nature src <> NoNature /\ mesh_ok src /\ mesh_ok trg /\ one_point_at_most src trg /\
  (fl_nature src = IntensiveConservation -> fl_dim src <> -1 /\ fl_dim trg <> -1).
(** The preparation has not changed. *)
Definition kept (r r' : remapper) : Prop := rm_src r' = rm_src r /\ rm_trg r' = rm_trg r /\ rm_mat r' = rm_mat r /\ zlen (rm_denoR r') = zlen (rm_denoR r).
(** Only the array of a field has changed. *)
Definition same_support (f g : field) : Prop :=
  fl_disc f = fl_disc g /\ fl_nature f = fl_nature g /\ fl_expected f = fl_expected g /\ fl_dim f = fl_dim g /\ fl_measure f = fl_measure g.

(** [N] has the coefficients of [M], rows and columns exchanged. *)
Definition transposed (M N : matrix) : Prop := forall i j v, (j, i, v) ∈ coeffs N <-> (i, j, v) ∈ coeffs M.
(** The coefficients whose absolute value does not exceed a limit. *)
Definition tiny (eps : Qc) (M : matrix) : list (Z * Z * Qc) := List.filter (fun '(_, _, v) => negb (bool_decide (eps < Qcabs v)%Qc)) (coeffs M).

(** The calls on a remapper; an exception is caught by the caller and the object lives on. *)
Inductive op : Type :=
| SetMatrix (s t : template) (M : matrix)
| Nullify (eps : Qc)
| Transfer (src trg : field) (dft : Qc)
| PartialTransfer (src trg : field)
| ReverseTransfer (src trg : field) (dft : Qc).
Definition after (e : effect) : res remapper := match e with (Ok _, (r, _)) | (Throw, (r, _)) => Ok r | (UB, _) => UB | (Fuel, _) => Fuel end.
Definition step (r : remapper) (o : op) : res remapper :=
  match o with
  | SetMatrix s t M => Ok (snd (setCrudeMatrix s t M))
  | Nullify eps => Ok (snd (nullifiedTinyCoeffInCrudeMatrixAbs r eps))
  | Transfer src trg dft => after (transfer r src trg dft)
  | PartialTransfer src trg => after (partialTransfer r src trg)
  | ReverseTransfer src trg dft => after (reverseTransfer r src trg dft)
  end.
Definition run (ops : list op) : res remapper := foldM step ops (RM None None [] [] []).
(** The matrices given are maps, and the templates have a number of tuples. *)
Definition well_formed (o : op) : Prop := match o with SetMatrix s t M => is_matrix M /\ 0 <= ft_expected s | _ => True end.
(** No coefficient is taken away between a transfer and the next matrix. *)
Fixpoint clean_from (used : bool) (ops : list op) : bool :=
  match ops with
  | [] => true
  | SetMatrix _ _ _ :: ops => clean_from false ops
  | Nullify _ :: ops => negb used && clean_from used ops
  | _ :: ops => clean_from true ops
  end.
Definition clean (ops : list op) : bool := clean_from false ops.
(** The remappers that a program can meet; those that it meets without such a removal. *)
Definition reachable (r : remapper) : Prop := exists ops, Forall well_formed ops /\ run ops = Ok r.
Definition reachable_clean (r : remapper) : Prop := exists ops, Forall well_formed ops /\ clean ops = true /\ run ops = Ok r.
