(** Small meshes. *)
From Coq Require Import QArith.
From stdpp Require Import gmap.
From Verif Require Import CellModel Base DataArray IndexSpec CellTable GlModel UmModel UmSpec MgSpec GtModel GtSpec.
Local Open Scope Z_scope.

(** A square cut in two triangles, and a node more. *)
Definition gt_xy : da Q := DA true 2 [0; 0; 1; 0; 0; 1; 1; 1; 2; 2]%Q.
Definition gt_tri : sgt := SG cm_TRI3 (Some gt_xy) (Some [0; 1; 2; 1; 3; 2]).
Definition gt_tri_cells : list cell := [(3, [0; 1; 2]); (3, [1; 3; 2])].
Lemma gt_tri_holds : s_holds gt_tri gt_tri_cells.
Proof. split; [done|]. split; [done|]. split; [|done]. intros c Hc. apply elem_of_list_In in Hc. cbn in Hc. destruct Hc as [<-|[<-|[]]]; done. Qed.
Lemma gt_xy_nodes : coords_of (Some gt_xy) 5.
Proof. exists gt_xy. split; [done|]. split; [done|]. split; [|done]. split; [done|]. exists 5. done. Qed.
(** A polyhedron of four faces and a part of it, in a connectivity that starts after its beginning. *)
Definition gt_xyz : da Q := DA true 3 [0; 0; 0; 1; 0; 0; 0; 1; 0; 0; 0; 1; 1; 1; 1]%Q.
Definition gt_poly : dgt := DG cm_POLYHED (Some gt_xyz) (Some [4; 0; 1; 2; -1; 0; 3; 1; -1; 1; 3; 2; -1; 2; 3; 0; 1; 2; 3; 4]) (Some [1; 16; 19]).
Definition gt_poly_cells : list cell := [(31, [0; 1; 2; -1; 0; 3; 1; -1; 1; 3; 2; -1; 2; 3; 0]); (31, [1; 2; 3])].
Lemma gt_poly_holds : d_holds gt_poly gt_poly_cells.
Proof.
  split; [done|]. split; [done|]. split; [intros c Hc; apply elem_of_list_In in Hc; cbn in Hc; destruct Hc as [<-|[<-|[]]]; done|]. eexists _, _, 1. split; [reflexivity|]. split; [reflexivity|]. split; [done|]. split; [|done].
  intros i c Hi. apply zlook_Some_lt in Hi as Hl. change (zlen gt_poly_cells) with 2 in Hl. assert (i = 0 \/ i = 1) as [-> | ->] by lia; injection Hi as <-; eexists _, _; (split; [reflexivity|]); (split; [reflexivity|]); done.
Qed.
Lemma gt_xyz_nodes : coords_of (Some gt_xyz) 5.
Proof. exists gt_xyz. split; [done|]. split; [done|]. split; [|done]. split; [done|]. exists 5. done. Qed.
(** The same without holes. *)
Definition gt_packed : dgt := DG cm_POLYHED (Some gt_xyz) (Some [0; 1; 2; -1; 0; 3; 1; -1; 1; 3; 2; -1; 2; 3; 0; 1; 2; 3]) (Some [0; 15; 18]).
Lemma gt_packed_holds : d_packed gt_packed gt_poly_cells.
Proof.
  split; [done|]. split; [done|]. split; [intros c Hc; apply elem_of_list_In in Hc; cbn in Hc; destruct Hc as [<-|[<-|[]]]; done|]. eexists _, _. split; [reflexivity|]. split; [reflexivity|]. split; [done|]. split; [done|].
  intros i Hi. change (zlen (zlen <$> (snd <$> gt_poly_cells))) with 2 in Hi. assert (i = 0 \/ i = 1 \/ i = 2) as [-> | [-> | ->]] by lia; done.
Qed.
Lemma fetched_unpacked : exists m cells nb, d_holds m cells /\ coords_of (dg_coords m) nb /\ within_sep nb cells /\ exists l, D_computeFetchedNodeIds m = Ok l /\ 4 ∈ l /\ ~ used cells 4.
Proof.
  exists gt_poly, gt_poly_cells, 5. split; [apply gt_poly_holds|]. split; [apply gt_xyz_nodes|]. split.
  - intros c v Hc Hv. apply elem_of_list_In in Hc, Hv. cbn in Hc. destruct Hc as [<-|[<-|[]]]; cbn in Hv; lia.
  - exists [0; 1; 2; 3; 4]. split; [vm_compute; done|]. split; [apply elem_of_list_In; cbn; tauto|]. intros (_ & c & Hc & Hv). apply elem_of_list_In in Hc, Hv. cbn in Hc. destruct Hc as [<-|[<-|[]]]; cbn in Hv; lia.
Qed.
