(** ParaMEDMEM/BlockTopology.cxx and ComponentTopology.cxx: distribution of the elements of a structured domain over the processes of a group.
    A processor group is the list of the world ranks of its processes, in the order of their ranks in the group; the process that runs
    is given by its rank in the group.  MPI itself is not modelled: the result of allGather is a parameter.  Line numbers without
    file name are in BlockTopology.cxx. *)
From Verif Require Import Base StdModel.

(** BlockTopology.hxx 75-88; the cycle type is an enumeration, Block = 0; a NULL processor group is [None]. *)
Record topo := Topo { t_procs : list Z; t_idx : list (list Z); t_cycle : list Z; t_group : option (list Z); t_nb : Z }.
Definition t_dim (t : topo) : Z := zlen (t_idx t).
(** A method called on _proc_group. *)
Definition group {B} (t : topo) (k : list Z -> res B) : res B := match t_group t with Some g => k g | None => UB end.

(** The loop that cuts [n] elements in [p] blocks: lines 89-94 and ComponentTopology.cxx 37-43, 55-61. *)
Definition cutLoop (n p : Z) : res (list Z) :=
  forZ 1 (p + 1) (fun i arr =>
    let* x := rd arr (i - 1) in
    ub_if p =? 0 >>>
    let y := x + Z.quot n p in
    Ok (arr ++ [if i <=? Z.rem n p then y + 1 else y])) [0].
(** Lines 69-105; [lens]: number of coordinates along each axis. *)
Definition fromGrid (g lens : list Z) : res topo :=
  let nb := foldl Z.mul 1 lens in
  match lens with
  | [] => UB
  | n :: rest =>
    let* first := cutLoop n (zlen g) in
    Ok (Topo (zlen g :: ((fun _ => 1) <$> rest)) (first :: ((fun m => [0; m]) <$> rest)) ((fun _ => 0) <$> lens) (Some g) nb)
  end.
(** Lines 145-171; [counts]: what allGather puts in nbelems_per_proc. *)
Definition fromCounts (g counts : list Z) : res topo :=
  let* (arr, nb) := forZ 1 (zlen g + 1) (fun i '(arr, nb) =>
    let* x := rd arr (i - 1) in let* c := rd counts (i - 1) in Ok (arr ++ [x + c], nb + c)) ([0], 0) in
  Ok (Topo [zlen g] [arr] [0] (Some g) nb).

(** ComponentTopology.cxx 28-100. *)
Record comp := Comp { c_arr : list Z; c_group : option (list Z) }.
Definition compOfGroup (nb_comp : Z) (g : list Z) : res comp :=
  throw_if nb_comp <? zlen g >>> let* arr := cutLoop nb_comp (zlen g) in Ok (Comp arr (Some g)).
Definition compOfBlocks (nb_comp nb_blocks : Z) : res comp :=
  throw_if nb_comp <? nb_blocks >>> let* arr := cutLoop nb_comp nb_blocks in Ok (Comp arr None).
Definition compOne (nb_comp : Z) : comp := Comp [0; nb_comp] None.
(** ComponentTopology.hxx 53-63 (_component_array.back(), size() - 1); .cxx 80-109. *)
Definition nbComponents (c : comp) : res Z := rd (c_arr c) (zlen (c_arr c) - 1).
Definition nbBlocks (c : comp) : Z := zlen (c_arr c) - 1.
Definition nbLocalComponents (c : comp) (rank : Z) : res Z :=
  match c_group c with None => nbComponents c | Some _ =>
    if rank =? -1 then Ok 0 else let* a := rd (c_arr c) (rank + 1) in let* b := rd (c_arr c) rank in Ok (a - b) end.
Definition firstLocalComponent (c : comp) (rank : Z) : res Z :=
  match c_group c with None => Ok 0 | Some _ => if rank =? -1 then Ok (-1) else rd (c_arr c) rank end.
(** Lines 116-143. *)
Definition compose (geom : topo) (c : comp) : res topo :=
  group geom (fun g =>
  throw_if (1 <? zlen g) && (1 <? nbBlocks c) >>>
  let* n := nbComponents c in
  if n =? 1 then Ok geom else
  Ok (Topo (t_procs geom ++ [nbBlocks c]) (t_idx geom ++ [c_arr c]) (t_cycle geom ++ [0])
    (if 1 <? nbBlocks c then c_group c else Some g) (t_nb geom * n))).

(** Lines 185-218.  The loops over the axes are written on the list of the axes. *)
Definition findBlock (ind : list Z) (axis_pos : Z) (inc sub : Z) : res (Z * Z) :=
  whileM (S (length ind)) (fun '(iaxis, _) => let* x := rd ind iaxis in Ok (x <=? axis_pos)) (fun '(iaxis, sub) => Ok (iaxis + 1, sub + inc)) (1, sub).
Definition globalToLocal (t : topo) (global : Z) : res (Z * Z) :=
  group t (fun g =>
  let size_procs := zlen g in
  let* (sub, _, _, axes) := foldM (fun '(sub, position, increment, axes) ind =>
    let axis_size := zlen ind - 1 in
    let* axis_nb_elem := rd ind axis_size in
    ub_if axis_nb_elem =? 0 >>>
    let increment := Z.quot increment axis_nb_elem in
    ub_if axis_size =? 0 >>>
    let proc_increment := Z.quot size_procs axis_size in
    ub_if increment =? 0 >>>
    let axis_pos := Z.quot position increment in
    let position := Z.rem position increment in
    let* (iaxis, sub) := findBlock ind axis_pos proc_increment sub in
    let* lo := rd ind (iaxis - 1) in
    Ok (sub, position, increment, axes ++ [(ind, axis_pos - lo, iaxis)])) (t_idx t) (0, global, t_nb t, []) in
  let* (local, _) := foldM (fun '(local, local_increment) '(ind, pos, off) =>
    let local := local + pos * local_increment in
    let* hi := rd ind off in let* lo := rd ind (off - 1) in
    Ok (local, local_increment * (hi - lo))) (rev axes) (0, 1) in
  Ok (sub, local)).

(** Lines 247-264. *)
Definition getNbLocalElements (t : topo) (rank : Z) : res Z :=
  group t (fun _ =>
  let* (nb, _, _) := foldM (fun '(nb, position, increment) '(np, ind) =>
    let increment := increment * np in
    ub_if increment =? 0 >>>
    let idim := Z.rem position increment in
    let position := Z.quot position increment in
    let* imin := rd ind idim in let* imax := rd ind (idim + 1) in
    Ok (nb * (imax - imin), position, increment)) (rev (zip (t_procs t) (t_idx t))) (1, rank, 1) in
  Ok nb).
(** Lines 271-288. *)
Definition getLocalArrayMinMax (t : topo) (rank : Z) : res (list (Z * Z)) :=
  group t (fun _ =>
  let* (l, _) := foldM (fun '(l, increment) '(np, ind) =>
    let increment := increment * np in
    ub_if increment =? 0 >>>
    let idim := Z.rem rank increment in
    let* imin := rd ind idim in let* imax := rd ind (idim + 1) in
    Ok ((imin, imax) :: l, increment)) (rev (zip (t_procs t) (t_idx t))) ([], 1) in
  Ok l).
(** Lines 221-244, run by the process [rank]. *)
Definition localToGlobal (t : topo) (rank : Z) (local : Z * Z) : res Z :=
  group t (fun g =>
  let '(sub, loc) := local in
  let* nbLocal := getNbLocalElements t rank in
  let* (global, _, _, _, _, _) := foldM (fun '(global, sub, loc, increment, proc_increment, local_increment) ind =>
    let axis_size := zlen ind - 1 in
    let* axis_nb_elem := rd ind axis_size in
    let increment := if axis_nb_elem =? 0 then 0 else Z.quot increment axis_nb_elem in
    ub_if axis_size =? 0 >>>
    let proc_increment := Z.quot proc_increment axis_size in
    ub_if proc_increment =? 0 >>>
    let proc_axis := Z.quot sub proc_increment in
    let sub := Z.rem sub proc_increment in
    let* hi := rd ind (proc_axis + 1) in let* lo := rd ind proc_axis in
    let local_axis_nb_elem := hi - lo in
    let local_increment := if local_axis_nb_elem =? 0 then 0 else Z.quot local_increment local_axis_nb_elem in
    let iaxis := (if local_increment =? 0 then 0 else Z.quot loc local_increment) + lo in
    Ok (global + increment * iaxis, sub, (if local_increment =? 0 then 0 else Z.rem loc local_increment), increment, proc_increment, local_increment))
    (t_idx t) (0, sub, loc, t_nb t, zlen g, nbLocal) in
  Ok global).

(** Lines 292-320. *)
Definition serialize (t : topo) : res (list Z) :=
  group t (fun g =>
  Ok ([t_dim t; t_nb t] ++ concat (zip_with (fun '(np, cy) ind => [np; cy; zlen ind] ++ ind) (zip (t_procs t) (t_cycle t)) (t_idx t)) ++ [zlen g] ++ g)).
(** Lines 328-355; [p]: position of ptr_serializer.  The group is built from an std::set of world ranks. *)
Definition unserialize (buf : list Z) : res topo :=
  let* dim := rd buf 0 in
  let* nb := rd buf 1 in
  ub_if dim <? 0 >>>
  let* (p, procs, cyc, idx) := forZ 0 dim (fun _ '(p, procs, cyc, idx) =>
    let* np := rd buf p in let* cy := rd buf (p + 1) in let* n := rd buf (p + 2) in
    ub_if n <? 0 >>>
    let* (p, ind) := forZ 0 n (fun _ '(p, ind) => let* x := rd buf p in Ok (p + 1, ind ++ [x])) (p + 3, []) in
    Ok (p, procs ++ [np], cyc ++ [cy], idx ++ [ind])) (2, [], [], []) in
  let* size := rd buf p in
  let* (_, g) := forZ 0 size (fun _ '(p, s) => let* x := rd buf p in Ok (p + 1, sins x s)) (p + 1, []) in
  Ok (Topo procs idx cyc (Some g) nb).
