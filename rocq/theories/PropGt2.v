(** C97: conversions between meshes with a single geometric type and meshes of the general class. *)
From Coq Require Import QArith.
From stdpp Require Import gmap.
From Verif Require Import CellModel Base DataArray IndexSpec CellTable GlModel UmModel UmSpec MgSpec GtModel GtSpec GtProofs GtProofs2 GtProofs4 GtProofs5 GtProofs6 GtProofs7 GtExamples.
Local Open Scope Z_scope.

(** A mesh of the general class is taken by the static class exactly when all its cells are of one static type, each with the number of nodes of that type. *)
Theorem C97_from_static u cells : stores u cells -> typed u cells ->
  ((exists t k, all_of t k cells /\ cm_dyn k = false) -> exists m, S_NewFrom u = Ok m /\ s_holds m cells /\ sg_coords m = um_coords u) /\
  (~ (exists t k, all_of t k cells /\ cm_dyn k = false) -> S_NewFrom u = Throw).
Proof. exact (from_static u cells). Qed.
Example C97_from_static_ex : S_NewFrom gt_um = Ok gt_tri /\ (exists t k, all_of t k gt_tri_cells /\ cm_dyn k = false) /\ stores gt_um gt_tri_cells /\ typed gt_um gt_tri_cells.
Proof. split; [vm_compute; done|]. split; [exists 3, cm_TRI3; split; [apply gt_tri_all|done]|apply gt_um_stores]. Qed.
Print Assumptions C97_from_static.
(** ... and by the dynamic class exactly when they are all of one dynamic type. *)
Theorem C97_from_dynamic u cells : stores u cells -> typed u cells ->
  ((exists t k, all_of t k cells /\ cm_dyn k = true) -> exists m, D_NewFrom u = Ok m /\ d_packed m cells /\ dg_coords m = um_coords u) /\
  (~ (exists t k, all_of t k cells /\ cm_dyn k = true) -> D_NewFrom u = Throw).
Proof. exact (from_dynamic u cells). Qed.
Example C97_from_dynamic_ex : D_NewFrom (UM 2 (Some gt_xy) (Some [5; 0; 1; 3; 2; 5; 3; 4; 2]) (Some [0; 5; 9]) [5]) = Ok (DG cm_POLYGON (Some gt_xy) (Some [0; 1; 3; 2; 3; 4; 2]) (Some [0; 4; 7])) /\ D_NewFrom gt_um = Throw.
Proof. vm_compute. done. Qed.
Print Assumptions C97_from_dynamic.
(** The constructor that chooses the class. *)
Theorem C97_from_any u cells : stores u cells -> typed u cells ->
  ((exists t k, all_of t k cells) -> exists g, G_NewFrom u = Ok g /\ g_holds g cells /\ G_coords g = um_coords u) /\ (~ (exists t k, all_of t k cells) -> G_NewFrom u = Throw).
Proof. exact (from_any u cells). Qed.
Example C97_from_any_ex : G_NewFrom gt_um = Ok (inl gt_tri) /\ G_NewFrom (UM 2 (Some gt_xy) (Some [3; 0; 1; 2; 5; 1; 3; 2]) (Some [0; 4; 8]) [3; 5]) = Throw.
Proof. vm_compute. done. Qed.
Print Assumptions C97_from_any.

(** To the general class: the same cells on the same nodes. *)
Theorem C97_to_static m cells : s_holds m cells ->
  exists u, S_buildUnstructured m = Ok u /\ stores u cells /\ typed u cells /\ um_coords u = sg_coords m /\ um_dim u = cm_dim (sg_cm m).
Proof. exact (s_build m cells). Qed.
Example C97_to_static_ex : S_buildUnstructured gt_tri = Ok gt_um.
Proof. vm_compute. done. Qed.
Print Assumptions C97_to_static.
Theorem C97_to_dynamic m cells : d_packed m cells ->
  exists u, D_buildUnstructured m = Ok u /\ stores u cells /\ typed u cells /\ um_coords u = dg_coords m /\ um_dim u = cm_dim (dg_cm m).
Proof. exact (d_build m cells). Qed.
Example C97_to_dynamic_ex : d_packed gt_quad [(5, [0; 1; 3; 2])] /\ D_buildUnstructured gt_quad = Ok (UM 2 (Some gt_xy) (Some [5; 0; 1; 3; 2]) (Some [0; 5]) [5]).
Proof. split; [apply gt_quad_holds|vm_compute; done]. Qed.
Print Assumptions C97_to_dynamic.
(** A connectivity with values that belong to no cell gives a mesh with values that were never written. *)
Theorem C97_to_dynamic_refuted : (exists m cells, d_holds m cells /\ D_buildUnstructured m = UB) /\
  (forall m cells conn, d_holds m cells -> dg_conn m = Some conn -> zlen (concat (snd <$> cells)) < zlen conn -> D_buildUnstructured m = UB).
Proof. exact (conj (ex_intro _ gt_poly (ex_intro _ gt_poly_cells (conj gt_poly_holds (d_build_hole _ _ _ gt_poly_holds eq_refl eq_refl)))) d_build_hole). Qed.
Print Assumptions C97_to_dynamic_refuted.

(** There and back: the same object; a mesh without cells has lost its type. *)
Theorem C97_round_static m cells : s_holds m cells ->
  (cells <> [] -> exists u, S_buildUnstructured m = Ok u /\ S_NewFrom u = Ok m) /\ (cells = [] -> exists u, S_buildUnstructured m = Ok u /\ S_NewFrom u = Throw).
Proof. exact (round_static m cells). Qed.
Example C97_round_static_ex : s_holds gt_tri gt_tri_cells /\ gt_tri_cells <> [].
Proof. split; [apply gt_tri_holds|discriminate]. Qed.
Print Assumptions C97_round_static.
Theorem C97_round_dynamic m cells : d_packed m cells ->
  (cells <> [] -> exists u, D_buildUnstructured m = Ok u /\ D_NewFrom u = Ok m) /\ (cells = [] -> exists u, D_buildUnstructured m = Ok u /\ D_NewFrom u = Throw).
Proof. exact (round_dynamic m cells). Qed.
Example C97_round_dynamic_ex : d_packed gt_packed gt_poly_cells /\ gt_poly_cells <> [].
Proof. split; [apply gt_packed_holds|discriminate]. Qed.
Print Assumptions C97_round_dynamic.

(** Several meshes on the same nodes in one of the general class: the cells of the first, then of the second, ...
    A different dimension or different nodes are refused. *)
Theorem C97_aggregate same first rest cellss : Forall2 g_holds (first :: rest) cellss ->
  ((forall g, g ∈ rest -> cm_dim (G_cm g) = cm_dim (G_cm first) /\ same (G_coords g) (G_coords first) = true) -> same (G_coords first) (G_coords first) = true ->
    exists u, AggregateOnSameCoordsToUMesh same (first :: rest) = Ok u /\ stores u (concat cellss) /\ typed u (concat cellss) /\ um_coords u = G_coords first /\ um_dim u = cm_dim (G_cm first)) /\
  ((exists g, g ∈ rest /\ (cm_dim (G_cm g) <> cm_dim (G_cm first) \/ same (G_coords g) (G_coords first) = false)) -> AggregateOnSameCoordsToUMesh same (first :: rest) = Throw).
Proof. exact (agg_ok same first rest cellss). Qed.
Example C97_aggregate_ex : Forall2 g_holds [inl gt_tri; inr gt_quad] [gt_tri_cells; [(5, [0; 1; 3; 2])]] /\
  AggregateOnSameCoordsToUMesh (fun _ _ => true) [inl gt_tri; inr gt_quad] = Ok (UM 2 (Some gt_xy) (Some [3; 0; 1; 2; 3; 1; 3; 2; 5; 0; 1; 3; 2]) (Some [0; 4; 8; 13]) [3; 5]).
Proof. split; [constructor; [apply gt_tri_holds|constructor; [apply gt_quad_holds|constructor]]|vm_compute; done]. Qed.
Print Assumptions C97_aggregate.
