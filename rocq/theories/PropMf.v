(** C100: sets of fields sharing meshes and arrays. *)
From stdpp Require Import strings.
From Verif Require Import Base ArrLib SerModel MfModel MfSpec MfProofs MfProofs2 MfProofs3 MfProofs5 MfProofs6 MfProofs7 MfExamples.
From Coq Require Import QArith.
Local Open Scope Z_scope.
Local Open Scope list_scope.

(** A set of fields is built exactly from fields that are all there and consistent. *)
Theorem C100_build {I} consistent (fs : list (option (fld I))) :
  ((forall fo, fo ∈ fs -> exists f, fo = Some f /\ consistent f = true) -> newMultiFields consistent fs = Ok fs) /\
  ((exists fo, fo ∈ fs /\ forall f, fo = Some f -> consistent f = false) -> newMultiFields consistent fs = Throw).
Proof. exact (constructor_thm consistent fs). Qed.
Print Assumptions C100_build.
Example C100_build_ex : newMultiFields (fun f => f_kind f =? 5) [Some ex_f0] = Ok [Some ex_f0] /\ newMultiFields (fun _ => true) ex_fs = Throw /\ newMultiFields (fun f => f_kind f =? 5) [Some ex_f0; Some ex_f2] = Throw.
Proof. done. Qed.
(** The field of a rank, refused outside the ranks. *)
Theorem C100_field_at {I} (fs : list (option (fld I))) id : match fs @ id with Some f => getFieldWithId fs id = Ok f | None => getFieldWithId fs id = Throw end.
Proof. exact (field_at_thm fs id). Qed.
Print Assumptions C100_field_at.
Example C100_field_at_ex : getFieldWithId ex_fs 3 = Ok (Some ex_f3) /\ getFieldWithId ex_fs 4 = Throw /\ getFieldWithId ex_fs (-1) = Throw.
Proof. done. Qed.
(** The time resolution is that of the first field there is. *)
Theorem C100_time_resolution {I} (fs : list (option (fld I))) :
  (forall i f, fs @ i = Some (Some f) -> (forall j, 0 <= j < i -> fs @ j = Some None) -> getTimeResolution fs = Ok (f_tol f)) /\
  ((forall f, Some f ∉ fs) -> getTimeResolution fs = Throw).
Proof. exact (resolution_thm fs). Qed.
Print Assumptions C100_time_resolution.
Example C100_time_resolution_ex : getTimeResolution (None :: ex_fs) = Ok (1#10)%Q /\ getTimeResolution (I := Z) [None] = Throw.
Proof. done. Qed.

(** The different meshes: each once, in the order of the fields, with for each field the rank of its mesh, -1 without mesh. *)
Theorem C100_different_meshes {I} (fs : list (option (fld I))) :
  exists ms refs, getDifferentMeshes fs = (ms, refs) /\ Distinct (meshOf <$> fs) ms /\ Forall2 (RefOf ms) (meshOf <$> fs) refs.
Proof. exact (meshes_thm fs). Qed.
Print Assumptions C100_different_meshes.
Example C100_different_meshes_ex : getDifferentMeshes ex_fs = ([0; 1], [0; -1; 0; 1]).
Proof. done. Qed.
(** The different arrays, in the same way, with for each field the ranks of its arrays. *)
Theorem C100_different_arrays {I} (fs : list (option (fld I))) :
  exists das refs, getDifferentArrays fs = (das, refs) /\ Distinct (concat (arraysOf <$> fs)) das /\ Forall2 (Forall2 (RefOf das)) (arraysOf <$> fs) refs.
Proof. exact (arrays_thm fs). Qed.
Print Assumptions C100_different_arrays.
Example C100_different_arrays_ex : getDifferentArrays ex_fs = ([1; 2], [[0]; []; [0; 1]; [-1]]).
Proof. done. Qed.
(** The meshes and the arrays of all fields, in order; the arrays cannot be asked for with a null field. *)
Theorem C100_meshes {I} (fs : list (option (fld I))) i f : fs @ i = Some f -> getMeshes fs @ i = Some (meshOf f).
Proof. exact (get_meshes_at fs i f). Qed.
Print Assumptions C100_meshes.
Example C100_meshes_ex : getMeshes ex_fs = [Some 0; None; Some 0; Some 1].
Proof. done. Qed.
Theorem C100_arrays_partial {I} (fs : list (option (fld I))) : (None ∉ fs -> getArrays fs = Ok (concat (arraysOf <$> fs))) /\ (None ∈ fs -> getArrays fs = UB).
Proof. exact (get_arrays_thm fs). Qed.
Print Assumptions C100_arrays_partial.
Example C100_arrays_partial_ex : getArrays [Some ex_f0; Some ex_f2; Some ex_f3] = Ok [Some 1; Some 1; Some 2; None] /\ getArrays ex_fs = UB.
Proof. done. Qed.

(** A deep copy puts new meshes and arrays after those in memory, leaves these as they are, gives each field new objects with the same
    contents, keeps names, time discretizations, tolerances and steps, and shares among the copies exactly what the fields share. *)
Theorem C100_deep_copy_partial {M A I} addr (s : store M A) (fs : list (option (fld I))) :
  (forall i f, fs @ i = Some (Some f) -> WellTimed f /\ InMemory s f /\ f_mesh f <> None) ->
  exists s' fs', deepCopy addr s fs = Ok (s', fs') /\
    (exists em ea, st_mesh s' = st_mesh s ++ em /\ st_arr s' = st_arr s ++ ea) /\
    zlen fs' = zlen fs /\ (forall i, fs @ i = Some None -> fs' @ i = Some None) /\
    (forall i f, fs @ i = Some (Some f) -> exists f', fs' @ i = Some (Some f') /\ f_ptr f' = addr i /\ SameData f f' /\
       FreshCopy (st_mesh s) (st_mesh s') (f_mesh f) (f_mesh f') /\ Forall2 (FreshCopy (st_arr s) (st_arr s')) (f_arrays f) (f_arrays f')) /\
    SameSharing fs fs'.
Proof. exact (deep_copy_ok addr s fs). Qed.
Print Assumptions C100_deep_copy_partial.
Definition ex_copy : list (option (fld Z)) :=
  [Some (Fld 200 1 50 (Some 2) 5 [Some 3] "" (1#10)%Q [(3, 4, 5%Q)]); None; Some (Fld 202 2 51 (Some 2) 6 [Some 3; Some 4] "" (1#5)%Q [(1, 2, 0%Q); (5, 6, 1%Q)]); Some (Fld 203 3 50 (Some 3) 4 [None] "" 0%Q [])].
Example C100_deep_copy_partial_ex : (forall i f, ex_fs @ i = Some (Some f) -> WellTimed f /\ InMemory ex_s f /\ f_mesh f <> None) /\
  deepCopy ex_addr ex_s ex_fs = Ok (St [10; 20; 10; 20] [7; 8; 9; 8; 9], ex_copy).
Proof. split; [exact ex_ok|done]. Qed.
(** A field without mesh makes the copy fail, by an exception. *)
Theorem C100_deep_copy_no_mesh {M A I} addr (s : store M A) (fs : list (option (fld I))) :
  (forall i f, fs @ i = Some (Some f) -> WellTimed f /\ InMemory s f) -> (exists i f, fs @ i = Some (Some f) /\ f_mesh f = None) -> deepCopy addr s fs = Throw.
Proof. exact (deep_copy_no_mesh addr s fs). Qed.
Print Assumptions C100_deep_copy_no_mesh.
Example C100_deep_copy_no_mesh_ex : deepCopy ex_addr ex_s [Some ex_f0; Some (Fld 103 1 50 None 4 [None] "" 0%Q [])] = Throw.
Proof. done. Qed.
(** The copy of a field has no time unit and shares the spatial discretization of the field it is copied from. *)
Theorem C100_deep_copy_unit_refuted {M A I} addr (s s' : store M A) (fs fs' : list (option (fld I))) :
  (forall i f, fs @ i = Some (Some f) -> WellTimed f /\ InMemory s f) -> deepCopy addr s fs = Ok (s', fs') ->
  forall f f', Pair fs fs' f f' -> f_unit f' = ""%string /\ f_discr f' = f_discr f.
Proof. exact (deep_copy_discr addr s s' fs fs'). Qed.
Print Assumptions C100_deep_copy_unit_refuted.
Example C100_deep_copy_unit_refuted_ex : exists f', Pair ex_fs ex_copy ex_f0 f' /\ f_unit ex_f0 = "s"%string /\ f_unit f' = ""%string.
Proof. eexists. split; [by exists 0|done]. Qed.

(** Two sets of fields are found equal exactly when they have as many fields, equal one to one, and share meshes in the same way. *)
Theorem C100_is_equal_partial {I} feq (a b : list (option (fld I))) : exists r, isEqual feq a b = Ok r /\
  (r = true <-> zlen a = zlen b /\ PairwiseEqual feq a b /\ SamePattern (meshOf <$> a) (meshOf <$> b)).
Proof. exact (is_equal_ok feq a b). Qed.
Print Assumptions C100_is_equal_partial.
Definition ex_g2 : fld Z := Fld 101 2 51 (Some 1) 6 [Some 1; Some 2] "ms" (1#5)%Q [(1, 2, 0%Q); (5, 6, 1%Q)].
Example C100_is_equal_partial_ex : isEqual (fun f g => f_info f =? f_info g) ex_fs ex_copy = Ok true /\
  isEqual (fun f g => f_info f =? f_info g) [Some ex_f0; Some ex_f2] [Some ex_f0; Some ex_g2] = Ok false.
Proof. done. Qed.
(** Whether they share arrays in the same way is not looked at. *)
Theorem C100_is_equal_arrays_refuted : exists (a b : list (option (fld Z))), isEqual (fun f g => f_info f =? f_info g) a b = Ok true /\
  ~ SamePattern (concat (arraysOf <$> a)) (concat (arraysOf <$> b)).
Proof. exact equal_arrays. Qed.
Print Assumptions C100_is_equal_arrays_refuted.

(** What is written for the different meshes and arrays, the integers and the doubles gives back, with meshes and arrays received in
    the same order, fields of the same time discretizations, tolerances and steps on the corresponding meshes and arrays. *)
Theorem C100_round_trip_partial {I} (addr : Z -> Z) (gs : list (fld I)) ft : Forall WellTimed gs -> zlen ft = zlen gs ->
  exists tI tD ms das, getTinySerializationInformation (Some <$> gs) = Ok (tI, tD, zlen ms, zlen das) /\
    Distinct (f_mesh <$> gs) ms /\ Distinct (concat (f_arrays <$> gs)) das /\
    forall ms' das', zlen ms' = zlen ms -> zlen das' = zlen das ->
    exists fs' : list (fld I), finishUnserialization addr tI tD ft ms' das' = Ok fs' /\ zlen fs' = zlen gs /\
      forall i f, gs @ i = Some f -> exists (f' : fld I) t, fs' @ i = Some f' /\ ft @ i = Some t /\ f_ptr f' = addr i /\ (f_info f', f_discr f') = t /\
        f_kind f' = f_kind f /\ f_tol f' = f_tol f /\ f_times f' = f_times f /\ Corr ms ms' (f_mesh f) (f_mesh f') /\ Forall2 (Corr das das') (f_arrays f) (f_arrays f').
Proof. exact (round_trip addr gs ft). Qed.
Print Assumptions C100_round_trip_partial.
Example C100_round_trip_partial_ex : Forall WellTimed [ex_f0; ex_f2; ex_f3] /\
  getTinySerializationInformation (Some <$> [ex_f0; ex_f2; ex_f3]) =
    Ok ([3; 4; 6; 0; 0; 1; 1; 2; 1; 5; 6; 4; 2; 3; 1; 2; 4; 0; 0; 0; 1; -1; 3; 4; 1; 2; 5; 6], [1#10; 5; 1#5; 0; 1; 0]%Q, 2, 2) /\
  finishUnserialization ex_addr [3; 4; 6; 0; 0; 1; 1; 2; 1; 5; 6; 4; 2; 3; 1; 2; 4; 0; 0; 0; 1; -1; 3; 4; 1; 2; 5; 6] [1#10; 5; 1#5; 0; 1; 0]%Q [(1, 50); (2, 51); (3, 50)] [8; 9] [30; 31] =
    Ok [Fld 200 1 50 (Some 8) 5 [Some 30] "" (1#10)%Q [(3, 4, 5%Q)]; Fld 201 2 51 (Some 8) 6 [Some 30; Some 31] "" (1#5)%Q [(1, 2, 0%Q); (5, 6, 1%Q)]; Fld 202 3 50 (Some 9) 4 [None] "" 0%Q []].
Proof. destruct ex_timed as (? & ? & ?). split; [by repeat constructor|done]. Qed.
(** A set with a null field cannot be written: the field is dereferenced. *)
Theorem C100_write_null_refuted {I} (fs : list (option (fld I))) : None ∈ fs -> getTinySerializationInformation fs = UB.
Proof. exact (null_ser fs). Qed.
Print Assumptions C100_write_null_refuted.
Example C100_write_null_refuted_ex : None ∈ ex_fs /\ getTinySerializationInformation ex_fs = UB.
Proof. split; [set_solver|done]. Qed.
