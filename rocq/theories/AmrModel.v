(** MEDCouplingIMesh.cxx: transfer of cell fields between a coarse grid and a refined patch.  All line numbers are in that file.
    A is the type of the values (double); [plus] is the addition on it.  The pointers into the two arrays always move by whole tuples:
    they are counted in tuples.  The two arrays are distinct objects; [None] is a NULL pointer. *)
From Verif Require Import Base DataArray StrModel.

Section amr.
Context {A : Type} (plus : A -> A -> A).

(** std::copy(inPtr, inPtr + nbCompo, loc) and std::transform(inPtr, inPtr + nbCompo, loc, loc, std::plus<double>()). *)
Definition cpT (nc : Z) (inp : list A) (src : Z) (out : list A) (dst : Z) : res (list A) :=
  forZ 0 nc (fun c out => let* x := rd inp (src * nc + c) in wr out (dst * nc + c) x) out.
Definition addT (nc : Z) (inp : list A) (src : Z) (out : list A) (dst : Z) : res (list A) :=
  forZ 0 nc (fun c out => let* x := rd inp (src * nc + c) in let* y := rd out (dst * nc + c) in wr out (dst * nc + c) (plus x y)) out.
(** if (again) transform else copy; inPtr += nbCompo. *)
Definition acc (nc : Z) (inp : list A) (loc : Z) (again : bool) (s : list A * Z) : res (list A * Z) :=
  let '(out, ip) := s in
  let* out := (if again then addT nc inp ip out loc else cpT nc inp ip out loc) in
  Ok (out, ip + 1).

(** The checks at the beginning of CondenseFineToCoarse (372-425). *)
Definition condenseChecks (st : list Z) (fine : da A) (part : box) (facts : list Z) (coarse : da A) (k : res (da A)) : res (da A) :=
  let* nbCoarse := DeduceNumberOfGivenStructure st in
  let* nbFine := DeduceNumberOfGivenRangeInCompactFrmt part in
  throw_if negb (da_nc coarse =? da_nc fine) >>>
  throw_if negb (da_nt coarse =? nbCoarse) >>>
  if nbFine =? 0 then (if da_nt fine =? 0 then Ok coarse else Throw) else
  throw_if negb (Z.rem (da_nt fine) nbFine =? 0) >>>
  let fact := accInt Z.mul 1 facts in
  throw_if negb (da_nt fine =? fact * nbFine) >>> k.
(** Lines 372-505. *)
Definition CondenseFineToCoarse (st : list Z) (fine : option (da A)) (part : box) (facts : list Z) (coarse : option (da A)) : res (da A) :=
  throw_if negb (zlen st =? zlen part) || negb (zlen st =? zlen facts) >>>
  match coarse, fine with Some coarse, Some fine =>
  throw_if negb (da_alloc coarse) || negb (da_alloc fine) >>>
  condenseChecks st fine part facts coarse (
  let nc := da_nc fine in let inp := da_vals fine in
  let* dims := GetDimensionsFromCompactFrmt part in
  let* out := (match st, part, facts, dims with
    | [_], [(a0, _)], [f0], [d0] =>
      let offset := a0 in
      let* (out, _) := forZ 0 d0 (fun i s =>
        let loc := offset + i in
        forZ 0 f0 (fun ifact s => acc nc inp loc (negb (ifact =? 0)) s) s) (da_vals coarse, 0) in
      Ok out
    | [s0; _], [(a0, _); (a1, _)], [f0; f1], [d0; d1] =>
      let kk := a0 + s0 * a1 in
      let* (out, _, _) := forZ 0 d1 (fun j '(s, kk) =>
        let* s := forZ 0 f1 (fun jfact s => forZ 0 d0 (fun i s =>
          let loc := kk + i in
          forZ 0 f0 (fun ifact s => acc nc inp loc (negb (jfact =? 0) || negb (ifact =? 0)) s) s) s) s in
        Ok (s, kk + s0)) (da_vals coarse, 0, kk) in
      Ok out
    | [s0; s1; _], [(a0, _); (a1, _); (a2, _)], [f0; f1; f2], [d0; d1; d2] =>
      let kk := a0 + s0 * a1 + s0 * s1 * a2 in
      let* (out, _, _) := forZ 0 d2 (fun k '(s, kk) =>
        let* s := forZ 0 f2 (fun kfact s => forZ 0 d1 (fun j s => forZ 0 f1 (fun jfact s => forZ 0 d0 (fun i s =>
          let loc := kk + i + j * s0 in
          forZ 0 f0 (fun ifact s => acc nc inp loc (negb (kfact =? 0) || negb (jfact =? 0) || negb (ifact =? 0)) s) s) s) s) s) s in
        Ok (s, kk + s0 * s1)) (da_vals coarse, 0, kk) in
      Ok out
    | _, _, _, _ => Throw
    end) in
  Ok (DA true (da_nc coarse) out))
  | _, _ => Throw end.

(** The checks at the beginning of the three functions with a ghost zone (538-592, 848-903, 989-1044). *)
Definition withGhost (g : Z) (l : list Z) : list Z := (fun n => n + 2 * g) <$> l.
Definition ghostChecks (g : Z) (st : list Z) (fine : option (da A)) (part : box) (facts : list Z) (coarse : option (da A))
    (k : da A -> da A -> res (da A)) : res (da A) :=
  throw_if g <? 0 >>>
  throw_if negb (zlen st =? zlen part) || negb (zlen st =? zlen facts) >>>
  match coarse, fine with Some coarse, Some fine =>
  throw_if negb (da_alloc coarse) || negb (da_alloc fine) >>>
  let* nbCoarse := DeduceNumberOfGivenStructure (withGhost g st) in
  throw_if negb (da_nc coarse =? da_nc fine) >>>
  throw_if negb (da_nt coarse =? nbCoarse) >>>
  let* dims := GetDimensionsFromCompactFrmt part in
  let* nbFine := DeduceNumberOfGivenStructure (withGhost g (zip_with Z.mul dims facts)) in
  throw_if negb (da_nt fine =? nbFine) >>> k fine coarse
  | _, _ => Throw end.
(** Lines 529-685. *)
Definition CondenseFineToCoarseGhost (st : list Z) (fine : option (da A)) (part : box) (facts : list Z) (coarse : option (da A)) (g : Z) : res (da A) :=
  ghostChecks g st fine part facts coarse (fun fine coarse =>
  let nc := da_nc fine in let inp := da_vals fine in
  let* dims := GetDimensionsFromCompactFrmt part in
  let skip n := (fun '(out, ip) => (out, ip + n)) : list A * Z -> list A * Z in
  let* out := (match st, part, facts, dims with
    | [_], [(a0, _)], [f0], [d0] =>
      let offset := a0 + g in
      let* (out, _) := forZ 0 d0 (fun i s =>
        let loc := offset + i in
        forZ 0 f0 (fun ifact s => acc nc inp loc (negb (ifact =? 0)) s) s) (da_vals coarse, g) in
      Ok out
    | [s0; _], [(a0, _); (a1, _)], [f0; f1], [d0; d1] =>
      let nxwg := s0 + 2 * g in
      let kk := a0 + g + nxwg * (a1 + g) in
      let* (out, _, _) := forZ 0 d1 (fun j '(s, kk) =>
        let* s := forZ 0 f1 (fun jfact s =>
          let s := skip g s in
          let* s := forZ 0 d0 (fun i s =>
            let loc := kk + i in
            forZ 0 f0 (fun ifact s => acc nc inp loc (negb (jfact =? 0) || negb (ifact =? 0)) s) s) s in
          Ok (skip g s)) s in
        Ok (s, kk + nxwg)) (da_vals coarse, (d0 * f0 + 2 * g) * g, kk) in
      Ok out
    | [s0; s1; _], [(a0, _); (a1, _); (a2, _)], [f0; f1; f2], [d0; d1; d2] =>
      let nxwg := s0 + 2 * g in let nxywg := (s0 + 2 * g) * (s1 + 2 * g) in
      let kk := a0 + g + nxwg * (a1 + g) + nxywg * (a2 + g) in
      let* (out, _, _) := forZ 0 d2 (fun k '(s, kk) =>
        let* s := forZ 0 f2 (fun kfact s =>
          let s := skip (g * (d0 * f0 + 2 * g)) s in
          let* s := forZ 0 d1 (fun j s =>
            let kky := j * nxwg in
            forZ 0 f1 (fun jfact s =>
              let s := skip g s in
              let* s := forZ 0 d0 (fun i s =>
                let loc := kky + kk + i in
                forZ 0 f0 (fun ifact s => acc nc inp loc (negb (kfact =? 0) || negb (jfact =? 0) || negb (ifact =? 0)) s) s) s in
              Ok (skip g s)) s) s in
          Ok (skip (g * (d0 * f0 + 2 * g)) s)) s in
        Ok (s, kk + nxywg)) (da_vals coarse, (d0 * f0 + 2 * g) * (d1 * f1 + 2 * g) * g, kk) in
      Ok out
    | _, _, _, _ => Throw
    end) in
  Ok (DA true (da_nc coarse) out)).

(** outPtr = std::copy(loc, loc + nbCompo, outPtr) *)
Definition put (nc : Z) (inp : list A) (loc : Z) (s : list A * Z) : res (list A * Z) :=
  let '(out, op) := s in let* out := cpT nc inp loc out op in Ok (out, op + 1).
(** Lines 705-805.  (In dimension 3, line 780: fact1 is facts[2].) *)
Definition SpreadCoarseToFine (coarse : option (da A)) (st : list Z) (fine : option (da A)) (part : box) (facts : list Z) : res (da A) :=
  throw_if negb (zlen st =? zlen part) || negb (zlen st =? zlen facts) >>>
  match coarse, fine with Some coarse, Some fine =>
  throw_if negb (da_alloc coarse) || negb (da_alloc fine) >>>
  let* nbCoarse := DeduceNumberOfGivenStructure st in
  let* nbFine := DeduceNumberOfGivenRangeInCompactFrmt part in
  throw_if negb (da_nc coarse =? da_nc fine) >>>
  throw_if negb (da_nt coarse =? nbCoarse) >>>
  ub_if nbFine =? 0 >>>
  throw_if negb (Z.rem (da_nt fine) nbFine =? 0) >>>
  let fact := accInt Z.mul 1 facts in
  throw_if negb (da_nt fine =? fact * nbFine) >>>
  let nc := da_nc fine in let inp := da_vals coarse in
  let* dims := GetDimensionsFromCompactFrmt part in
  let* out := (match st, part, facts, dims with
    | [_], [(a0, _)], [f0], [d0] =>
      let offset := a0 in
      let* (out, _) := forZ 0 d0 (fun i s =>
        let loc := offset + i in
        forZ 0 f0 (fun ifact s => put nc inp loc s) s) (da_vals fine, 0) in
      Ok out
    | [s0; _], [(a0, _); (a1, _)], [f0; f1], [d0; d1] =>
      let kk := a0 + s0 * a1 in
      let* (out, _, _) := forZ 0 d1 (fun j '(s, kk) =>
        let* s := forZ 0 f1 (fun jfact s => forZ 0 d0 (fun i s =>
          let loc := kk + i in
          forZ 0 f0 (fun ifact s => put nc inp loc s) s) s) s in
        Ok (s, kk + s0)) (da_vals fine, 0, kk) in
      Ok out
    | [s0; s1; _], [(a0, _); (a1, _); (a2, _)], [f0; f1'; f2], [d0; d1; d2] =>
      let kk := a0 + s0 * a1 + s0 * s1 * a2 in
      let f1 := f2 in
      let* (out, _, _) := forZ 0 d2 (fun k '(s, kk) =>
        let* s := forZ 0 f2 (fun kfact s => forZ 0 d1 (fun j s => forZ 0 f1 (fun jfact s => forZ 0 d0 (fun i s =>
          let loc := kk + i + j * s0 in
          forZ 0 f0 (fun ifact s => put nc inp loc s) s) s) s) s) s in
        Ok (s, kk + s0 * s1)) (da_vals fine, 0, kk) in
      Ok out
    | _, _, _, _ => Throw
    end) in
  Ok (DA true (da_nc fine) out)
  | _, _ => Throw end.

(** SpreadCoarseToFineGhost2D 1806-1862; [base]: tuple where inPtr points; the state is the output buffer and the position of outPtr. *)
Definition spreadRow (nc : Z) (inp : list A) (g kk d0 f0 : Z) (s : list A * Z) : res (list A * Z) :=
  let* s := forZ 0 g (fun _ s => put nc inp kk s) s in
  let kk0 := kk + 1 in
  let* (s, kk0) := forZ 0 d0 (fun _ '(s, kk0) =>
    let* s := forZ 0 f0 (fun _ s => put nc inp kk0 s) s in Ok (s, kk0 + 1)) (s, kk0) in
  forZ 0 g (fun _ s => put nc inp kk0 s) s.
Definition SpreadGhost2D (nc : Z) (inp : list A) (base : Z) (s0 a0 a1 b1 f0 f1 d0 d1 g : Z) (s : list A * Z) : res (list A * Z) :=
  let nxwg := s0 + 2 * g in
  let kk := a0 + g - 1 + nxwg * (a1 + g - 1) in
  let* s := forZ 0 g (fun _ s => spreadRow nc inp g (base + kk) d0 f0 s) s in
  let* s := forZ 0 d1 (fun j s =>
    let kk := a0 - 1 + g + nxwg * (a1 + g + j) in
    forZ 0 f1 (fun _ s => spreadRow nc inp g (base + kk) d0 f0 s) s) s in
  let kk := a0 + g - 1 + nxwg * (b1 + g) in
  forZ 0 g (fun _ s => spreadRow nc inp g (base + kk) d0 f0 s) s.
(** SpreadCoarseToFineGhostZone2D 1865-1924. *)
Definition SpreadGhostZone2D (nc : Z) (inp : list A) (base : Z) (s0 a0 a1 b1 f0 f1 d0 d1 g : Z) (s : list A * Z) : res (list A * Z) :=
  let nxwg := s0 + 2 * g in
  let kk := a0 + g - 1 + nxwg * (a1 + g - 1) in
  let* s := forZ 0 g (fun _ s => spreadRow nc inp g (base + kk) d0 f0 s) s in
  let* s := forZ 0 d1 (fun j s =>
    let kk := a0 - 1 + g + nxwg * (a1 + g + j) in
    forZ 0 f1 (fun _ s =>
      let* s := forZ 0 g (fun _ s => put nc inp (base + kk) s) s in
      let kk0 := kk + 1 + d0 in
      let '(out, op) := s in
      let s := (out, op + f0 * d0) in
      forZ 0 g (fun _ s => put nc inp (base + kk0) s) s) s) s in
  let kk := a0 + g - 1 + nxwg * (b1 + g) in
  forZ 0 g (fun _ s => spreadRow nc inp g (base + kk) d0 f0 s) s.

(** Lines 839-965 ([zone] = false) and 980-1099 ([zone] = true: only the ghost zone of the fine array is written). *)
Definition SpreadGhost (zone : bool) (coarse : option (da A)) (st : list Z) (fine : option (da A)) (part : box) (facts : list Z) (g : Z) : res (da A) :=
  ghostChecks g st fine part facts coarse (fun fine coarse =>
  let nc := da_nc fine in let inp := da_vals coarse in
  let* dims := GetDimensionsFromCompactFrmt part in
  let* out := (match st, part, facts, dims with
    | [_], [(a0, b0)], [f0], [d0] =>
      let offset := a0 + g - 1 in
      let* s := forZ 0 g (fun _ s => put nc inp offset s) (da_vals fine, 0) in
      let* s := (if zone then let '(out, op) := s in Ok (out, op + f0 * d0)
        else let offset := a0 + g in forZ 0 d0 (fun i s => let loc := offset + i in forZ 0 f0 (fun _ s => put nc inp loc s) s) s) in
      let offset := b0 + g in
      let* (out, _) := forZ 0 g (fun _ s => put nc inp offset s) s in
      Ok out
    | [s0; _], [(a0, _); (a1, b1)], [f0; f1], [d0; d1] =>
      let* (out, _) := (if zone then SpreadGhostZone2D nc inp 0 s0 a0 a1 b1 f0 f1 d0 d1 g (da_vals fine, 0)
        else SpreadGhost2D nc inp 0 s0 a0 a1 b1 f0 f1 d0 d1 g (da_vals fine, 0)) in
      Ok out
    | [s0; s1; _], [(a0, _); (a1, b1); (a2, _)], [f0; f1; f2], [d0; d1; d2] =>
      let nxyWgCoarse := (s0 + 2 * g) * (s1 + 2 * g) in
      let nxyWgFine := (d0 * f0 + 2 * g) * (d1 * f1 + 2 * g) in
      let plane zone offset := (fun '(out, op) =>
        let* (out, _) := (if zone : bool then SpreadGhostZone2D nc inp offset s0 a0 a1 b1 f0 f1 d0 d1 g (out, op)
          else SpreadGhost2D nc inp offset s0 a0 a1 b1 f0 f1 d0 d1 g (out, op)) in
        Ok (out, op + nxyWgFine)) : list A * Z -> res (list A * Z) in
      let offset := (a2 + g - 1) * nxyWgCoarse in
      let* s := forZ 0 g (fun _ s => plane false offset s) (da_vals fine, 0) in
      let offset := offset + nxyWgCoarse in
      let* (s, offset) := forZ 0 d2 (fun _ '(s, offset) =>
        let* s := forZ 0 f2 (fun _ s => plane zone offset s) s in Ok (s, offset + nxyWgCoarse)) (s, offset) in
      let* (out, _) := forZ 0 g (fun _ s => plane false offset s) s in
      Ok out
    | _, _, _, _ => Throw
    end) in
  Ok (DA true (da_nc fine) out)).
End amr.
