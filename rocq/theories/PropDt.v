(** C99: the definition of fields along the time. *)
From Verif Require Import Base ArrLib GlModel SerModel DtModel DtSpec DtProofs DtProofs2 DtProofs3 DtProofs4 DtProofs5 DtExamples.
From Coq Require Import QArith Qabs.
Local Open Scope Z_scope.

(** A definition of the time is built exactly when each field gives a slice and, with two fields or more, the slices ascend up to the
    tolerance of the first field; it is refused by an exception otherwise. *)
Theorem C99_build fs ms ars : zlen ms = zlen fs ->
  (newDefTime (Some <$> fs) ms ars = Throw \/ exists d, newDefTime (Some <$> fs) ms ars = Ok d) /\
  forall d, newDefTime (Some <$> fs) ms ars = Ok d <->
    zlen ars = zlen fs /\ slicesOf fs ms ars (d_slices d) /\
    (zlen fs <= 1 -> d_eps d = None) /\
    (forall f0, 2 <= zlen fs -> fs @ 0 = Some f0 -> d_eps d = Some (tf_tol f0) /\ ascending (tf_tol f0) (d_slices d)).
Proof. exact (build_run fs ms ars). Qed.
Print Assumptions C99_build.
Example C99_build_ex : newDefTime (Some <$> ex_fs) ex_ms ex_as = Ok (DT (Some (1#10)%Q) ex_sl)
  /\ newDefTime (Some <$> rev ex_fs) ex_ms (rev ex_as) = Throw /\ newDefTime (Some <$> [TF 7 2 1 0]) [0] [[0]] = Throw.
Proof. repeat split. Qed.
Theorem C99_build_forward fs ms ars d : zlen ms = zlen fs -> newDefTime (Some <$> fs) ms ars = Ok d -> forward (d_slices d).
Proof. exact (build_forward fs ms ars d). Qed.
Print Assumptions C99_build_forward.
Example C99_build_forward_ex : forward ex_sl.
Proof. exact (C99_build_forward ex_fs ex_ms ex_as _ eq_refl ex_build). Qed.

(** A null field is not refused, it is dereferenced. *)
Theorem C99_null_refuted : exists fs ms ars, zlen ms = zlen fs /\ zlen ars = zlen fs /\ newDefTime fs ms ars = UB.
Proof. exists [None], [0], [[]]. done. Qed.
Print Assumptions C99_null_refuted.
(** With one field the tolerance is never set, and every later use of the definition reads it. *)
Theorem C99_single_refuted f m a s : gives f m 0 a s -> exists d, newDefTime [Some f] [m] [a] = Ok d /\
  (forall tm, getIdsOnTime d tm = UB) /\ isEqual d d = UB /\ getTinySerializationInformation d = UB.
Proof. exact (single_thm f m a s). Qed.
Print Assumptions C99_single_refuted.
Example C99_single_ex : gives (TF 7 2 4 (1#10)) 0 0 [1] (CstTI 0 1 0 2 4).
Proof. by constructor. Qed.

(** At a time, the answer is that of the slices that hold it, in their order; one or two; nothing else is answered. *)
Theorem C99_ids e sl tm : exists c, holding e tm sl c /\
  (forall r, getIdsOnTime (DT (Some e) sl) tm = Ok r <-> 1 <= zlen c <= 2 /\ Forall2 (answers e tm) c r) /\
  (getIdsOnTime (DT (Some e) sl) tm = Throw <-> c = [] \/ 2 < zlen c \/ exists s, s ∈ c /\ forall r, ~ answers e tm s r).
Proof. exact (ids_thm e sl tm). Qed.
Print Assumptions C99_ids.
Example C99_ids_ex : getIdsOnTime (DT (Some (1#10)%Q) ex_sl) 4 = Ok [(0, 1, 0, 1); (1, 1, 0, 2)] /\ getIdsOnTime (DT (Some (1#10)%Q) ex_sl) 6 = Ok [(1, 2, 1, 2)]
  /\ getIdsOnTime (DT (Some (1#10)%Q) ex_sl) 5 = Throw /\ getIdsOnTime (DT (Some (1#10)%Q) ex_sl) 7 = Throw.
Proof. repeat split. Qed.
Theorem C99_right d tm r : getIdsOnTimeRight d tm = Ok r <-> exists p, getIdsOnTime d tm = Ok (p ++ [r]).
Proof. exact (right_thm d tm r). Qed.
Print Assumptions C99_right.
Theorem C99_left d tm r : getIdsOnTimeLeft d tm = Ok r <-> exists p, getIdsOnTime d tm = Ok (r :: p).
Proof. exact (left_thm d tm r). Qed.
Print Assumptions C99_left.
Example C99_sides_ex : getIdsOnTimeRight (DT (Some (1#10)%Q) ex_sl) 4 = Ok (1, 1, 0, 2) /\ getIdsOnTimeLeft (DT (Some (1#10)%Q) ex_sl) 4 = Ok (0, 1, 0, 1).
Proof. repeat split. Qed.

(** When the slices that do not follow each other are far enough, a time is refused only because no slice holds it or because it is
    inside a linear slice. *)
Theorem C99_refusals e sl tm : apart e sl -> getIdsOnTime (DT (Some e) sl) tm = Throw ->
  (forall s, s ∈ sl -> ~ holds e tm s) \/ exists s, s ∈ sl /\ holds e tm s /\ forall r, ~ answers e tm s r.
Proof. exact (two_thm e sl tm). Qed.
Print Assumptions C99_refusals.
(** So it is when every slice lasts at least four tolerances. *)
Theorem C99_long e sl : (0 <= e)%Q -> ascending e sl -> (forall i s, sl @ i = Some s -> (startTime s + 4 * e <= endTime s)%Q) -> apart e sl /\ lasting e sl.
Proof. exact (long_apart e sl). Qed.
Print Assumptions C99_long.
Example C99_apart_ex : apart (1#10) ex_sl.
Proof. exact (proj1 (proj2 (proj2 ex_fine))). Qed.
(** Without it, an accepted sequence may refuse a time that is the instant of one of its fields. *)
Theorem C99_too_many_refuted : exists fs ms ars d f, newDefTime (Some <$> fs) ms ars = Ok d /\ f ∈ fs /\ getIdsOnTime d (tf_start f) = Throw.
Proof. exists [TF 5 1 1 1; TF 5 1 1 1; TF 5 1 1 1], [0; 0; 0], [[0]; [1]; [2]]. eexists _, _. split; [reflexivity|]. split; [left|reflexivity]. Qed.
Print Assumptions C99_too_many_refuted.

(** The remarkable times: times of the slices, all of them up to the tolerance, ascending, and each of them is answered. *)
Theorem C99_hot e sl : (0 < e)%Q -> forward sl -> ascending e sl ->
  exists hs, getHotSpotsTime (DT (Some e) sl) = Ok hs /\
    (forall h, h ∈ hs -> exists s, s ∈ sl /\ hot s h) /\
    (forall s h, s ∈ sl -> hot s h -> exists r, r ∈ hs /\ (Qabs (r - h) <= e)%Q) /\
    (apart e sl -> lasting e sl -> forall k x y, hs @ k = Some x -> hs @ (k + 1) = Some y -> (x + e < y)%Q) /\
    (apart e sl -> forall h, h ∈ hs -> exists r, getIdsOnTime (DT (Some e) sl) h = Ok r).
Proof. exact (hot_thm e sl). Qed.
Print Assumptions C99_hot.
Example C99_hot_ex : ((0 < 1#10)%Q /\ forward ex_sl /\ ascending (1#10) ex_sl /\ apart (1#10) ex_sl /\ lasting (1#10) ex_sl)
  /\ getHotSpotsTime (DT (Some (1#10)%Q) ex_sl) = Ok [1; (2 + 4) / 2; 4; 6]%Q.
Proof. split; [split; [done|exact ex_fine]|reflexivity]. Qed.
(** The tolerances add up: an accepted sequence may have remarkable times that go back. *)
Theorem C99_hot_order_refuted : exists fs ms ars d hs k x y, newDefTime (Some <$> fs) ms ars = Ok d /\ getHotSpotsTime d = Ok hs /\
  hs @ k = Some x /\ hs @ (k + 1) = Some y /\ (y < x)%Q.
Proof. exists [TF 5 100 100 10; TF 5 91 91 10; TF 5 82 82 10], [0; 0; 0], [[0]; [1]; [2]]. eexists _, _, 0, _, _. split; [reflexivity|]. split; [reflexivity|]. split; [reflexivity|]. split; reflexivity. Qed.
Print Assumptions C99_hot_order_refuted.

(** Equality: the same number of slices, and slices alike up to the tolerance of the first definition. *)
Theorem C99_equal e sl e' sl' : exists b, isEqual (DT (Some e) sl) (DT e' sl') = Ok b /\ (b = true <-> Forall2 (alike e) sl sl').
Proof. exact (equal_thm e sl e' sl'). Qed.
Print Assumptions C99_equal.
Theorem C99_equal_self e s : (0 < e)%Q -> alike e s s.
Proof. exact (alike_refl e s). Qed.
Print Assumptions C99_equal_self.
Example C99_equal_ex : isEqual (DT (Some (1#10)%Q) ex_sl) (DT None [Inst 0 0 0 (105#100); CstTI 0 1 1 2 4; LinT 1 1 2 2 4 6]) = Ok true
  /\ isEqual (DT (Some (1#10)%Q) ex_sl) (DT (Some 1%Q) [Inst 0 0 0 (15#10); CstTI 0 1 1 2 4; LinT 1 1 2 2 4 6]) = Ok false.
Proof. repeat split. Qed.
(** assign copies the slices and not the tolerance: the copy does not answer as the original. *)
Theorem C99_assign_refuted : exists d o tm, d_eps o <> None /\ d_eps d <> None /\ getIdsOnTime (assign d o) tm = Throw /\ getIdsOnTime o tm = Ok [(0, 0, 0, 0)].
Proof. exists (DT (Some 0%Q) []), (DT (Some (1#10)%Q) [Inst 0 0 0 1]), 1%Q. repeat split; done. Qed.
Print Assumptions C99_assign_refuted.

(** What is serialized gives the same definition back. *)
Theorem C99_serialization e sl : exists tI tD, getTinySerializationInformation (DT (Some e) sl) = Ok (tI, tD) /\ unserialize tI tD = Ok (DT (Some e) sl).
Proof. exact (ser_thm e sl). Qed.
Print Assumptions C99_serialization.
Example C99_serialization_ex : getTinySerializationInformation (DT (Some (1#10)%Q) ex_sl) =
  Ok ([3; 10; 5; 7; 6; 3; 3; 4; 1; 2; 2; 0; 0; 0; 0; 1; 1; 1; 1; 2; 2], [1#10; 1; 2; 4; 4; 6]%Q).
Proof. reflexivity. Qed.

(** The test of the overlap answers the contrary of its name. *)
Theorem C99_overlap_refuted :
  (exists s o e, (0 < e)%Q /\ (endTime s + e < startTime o)%Q /\ isOverllapingWithMe s o e = true) /\
  (exists s o e, (0 < e)%Q /\ startTime s = startTime o /\ endTime s = endTime o /\ (startTime s < endTime s)%Q /\ isOverllapingWithMe s o e = false).
Proof. split; [exists (CstTI 0 0 0 0 1), (CstTI 0 0 0 2 3), (1#10)%Q|exists (CstTI 0 0 0 0 1), (CstTI 0 0 0 0 1), (1#10)%Q]; repeat split. Qed.
Print Assumptions C99_overlap_refuted.

(** The fields of a sequence are accepted exactly when all have a time, the meshes are compatible, and each starts at the end of the one
    before or later, up to the tolerance of the first. *)
Theorem C99_over_time fs compat : (overTimeCheck fs compat = Ok tt \/ overTimeCheck fs compat = Throw) /\
  (overTimeCheck fs compat = Ok tt <->
     (forall f, f ∈ fs -> tf_kind f <> 4) /\ (forall i, 1 <= i < zlen fs -> compat i = true) /\
     (forall i f0 f g, fs @ 0 = Some f0 -> fs @ i = Some f -> fs @ (i + 1) = Some g -> (tf_end f - tf_tol f0 <= tf_start g)%Q)).
Proof. exact (over_thm fs compat). Qed.
Print Assumptions C99_over_time.
Example C99_over_time_ex : overTimeCheck ex_fs (fun _ => true) = Ok tt.
Proof. reflexivity. Qed.
(** The two tests of the order do not agree: an accepted sequence whose fields follow each other exactly may have no definition of time. *)
Theorem C99_over_time_zone_refuted : exists fs ms ars, overTimeCheck fs (fun _ => true) = Ok tt /\
  (forall f, f ∈ fs -> (tf_start f < tf_end f)%Q) /\ newDefTime (Some <$> fs) ms ars = Throw /\
  exists sl, zlen ms = zlen fs /\ slicesOf fs ms ars sl.
Proof.
  exists [TF 7 0 1 0; TF 7 1 2 0], [0; 0], [[0]; [1]]. split; [done|]. split; [|split; [done|]].
  - intros f Hf. apply elem_of_cons in Hf as [->|Hf]; [done|]. apply elem_of_list_singleton in Hf as ->. done.
  - eexists. split; [done|]. by apply slices_of_two; constructor.
Qed.
Print Assumptions C99_over_time_zone_refuted.
(** A slice is included in another up to the tolerance when all its times are. *)
Theorem C99_included s o e : (startTime o <= endTime o)%Q ->
  isFullyIncludedInMe s o e = true <-> forall tm, (startTime o <= tm)%Q -> (tm <= endTime o)%Q -> (startTime s - e < tm)%Q /\ (tm < endTime s + e)%Q.
Proof. exact (included_thm s o e). Qed.
Print Assumptions C99_included.
(** A slice is before another when the other is after it, that is when it ends before the start of the other up to the tolerance. *)
Theorem C99_before s o e : (startTime s <= endTime s)%Q -> (startTime o <= endTime o)%Q ->
  isBeforeMe s o e = true <-> isAfterMe o s e = true.
Proof. exact (before_thm s o e). Qed.
Print Assumptions C99_before.
Theorem C99_after s o e : isAfterMe s o e = true <-> (endTime s - e < startTime o)%Q /\ (endTime s - e < endTime o)%Q.
Proof. exact (after_iff s o e). Qed.
Print Assumptions C99_after.
Example C99_order_ex : isBeforeMe (CstTI 0 0 0 2 3) (CstTI 0 0 0 0 2) (1#10) = true /\ isAfterMe (CstTI 0 0 0 0 2) (CstTI 0 0 0 2 3) (1#10) = true
  /\ isFullyIncludedInMe (CstTI 0 0 0 0 2) (CstTI 0 0 0 0 1) (1#10) = true /\ isFullyIncludedInMe (CstTI 0 0 0 0 2) (CstTI 0 0 0 1 3) (1#10) = false.
Proof. repeat split. Qed.
