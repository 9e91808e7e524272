(** Small meshes: merges. *)
From Coq Require Import QArith.
From stdpp Require Import gmap.
From Verif Require Import CellModel Base DataArray IndexSpec CellTable GlModel UmModel UmSpec MgSpec GtModel GtSpec GtSpec2 GtProofs GtExamples.
Local Open Scope Z_scope.

Lemma renum_hole : exists m cells l, d_holds m cells /\ zlen l = zlen cells /\ NoDup l /\ (forall v, v ∈ l -> 0 <= v < zlen cells) /\ D_renumberCells m l false = UB.
Proof.
  exists gt_poly, gt_poly_cells, [1; 0]. split; [apply gt_poly_holds|]. split; [done|]. split; [apply (bool_decide_unpack _); vm_compute; done|]. split; [|vm_compute; done]. intros v Hv. change (zlen gt_poly_cells) with 2. apply elem_of_list_In in Hv. cbn in Hv. lia.
Qed.
Lemma gt_xy_in : nodes_in (nodes_only (Some gt_xy)) 2 5.
Proof. exists gt_xy. split; [done|]. split; [done|]. split; [|done]. split; [done|]. exists 5. done. Qed.
Lemma gt_xyz_in : nodes_in (nodes_only (Some gt_xyz)) 3 5.
Proof. exists gt_xyz. split; [done|]. split; [done|]. split; [|done]. split; [done|]. exists 5. done. Qed.
Lemma gt_tri_merge : Forall2 (fun m p => s_brings cm_TRI3 2 m p /\ no_negative p.1) [gt_tri; SG cm_TRI3 None None; gt_tri] [(gt_tri_cells, 5); ([], 0); (gt_tri_cells, 5)].
Proof.
  assert (H : s_brings cm_TRI3 2 gt_tri (gt_tri_cells, 5) /\ no_negative gt_tri_cells). { split; [split; [done|]; split; left; [apply gt_tri_holds|apply gt_xy_in]|]. intros c v Hc Hv. apply elem_of_list_In in Hc, Hv. cbn in Hc. destruct Hc as [<-|[<-|[]]]; cbn in Hv; lia. }
  constructor; [done|]. constructor; [|constructor; [done|constructor]]. split; [split; [done|]; split; right; done|]. intros c v Hc. by apply elem_of_nil in Hc.
Qed.
Lemma gt_poly_seps : separators gt_poly_cells.
Proof. intros c v Hc Hv. apply elem_of_list_In in Hc, Hv. cbn in Hc. destruct Hc as [<-|[<-|[]]]; cbn in Hv; lia. Qed.
Lemma gt_poly_merge : Forall2 (fun m p => d_brings cm_POLYHED 3 m p /\ separators p.1) [gt_poly; DG cm_POLYHED None None None; gt_packed] [(gt_poly_cells, 5); ([], 0); (gt_poly_cells, 5)].
Proof.
  constructor; [split; [split; [done|]; split; left; [apply gt_poly_holds|apply gt_xyz_in]|apply gt_poly_seps]|]. constructor; [split; [split; [done|]; split; right; done|]; intros c v Hc; by apply elem_of_nil in Hc|]. constructor; [|constructor]. split; [split; [done|]; split; left; [apply packed_holds, gt_packed_holds|apply gt_xyz_in]|apply gt_poly_seps].
Qed.
Lemma line_bad : exists parts r, BuildAPolygonFromParts parts = Ok r /\ ~ NoDup r /\ exists p v, p ∈ parts /\ v ∈ p /\ v ∉ r.
Proof.
  exists [[0; 1]; [1; 2]; [2; 3]; [3; 1]; [7; 8]], [0; 1; 2; 3; 1; 2]. split; [vm_compute; done|]. split; [intros H; assert (bool_decide (NoDup [0; 1; 2; 3; 1; 2]) = true) as E by (by apply bool_decide_eq_true); by vm_compute in E|]. exists [7; 8], 7. split; [apply elem_of_list_In; cbn; tauto|]. split; [left|]. intros H. apply elem_of_list_In in H. cbn in H. lia.
Qed.
