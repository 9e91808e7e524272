From Coq Require Import QArith ZifyBool ZifyNat.
From stdpp Require Import gmap.
From Verif Require Import CellModel Base DataArray ArrLib FillLib IndexSpec CellTable CellProofs5 GlModel UmModel UmSpec UmProofs MgSpec GtModel GtSpec GtProofs GtProofs2 GtProofs4 GtProofs5 GtProofs6 GtExamples.
Local Open Scope Z_scope.

(** * There and back *)
Lemma round_static m cells : s_holds m cells -> (cells <> [] -> exists u, S_buildUnstructured m = Ok u /\ S_NewFrom u = Ok m) /\ (cells = [] -> exists u, S_buildUnstructured m = Ok u /\ S_NewFrom u = Throw).
Proof.
  intros H. destruct (s_build m cells H) as (u & E & S1 & S2 & Ec & _). destruct (from_static u cells S1 S2) as (A & B). split.
  - intros Hne. exists u. split; [done|]. destruct H as (H1 & H2 & H3 & H4). destruct A as (m' & -> & (K1 & K2 & K3 & K4) & Ec').
    { exists (cm_type (sg_cm m)), (sg_cm m). split; [|done]. split; [done|]. split; [done|]. intros c Hc. destruct (H3 c Hc). done. }
    f_equal. assert (sg_cm m' = sg_cm m) as Em. { destruct cells as [|c r]; [done|]. destruct (H3 c ltac:(left)) as (T1 & _). destruct (K3 c ltac:(left)) as (T2 & _). rewrite <- T2, T1, H1 in K1. by injection K1. }
    destruct m, m'. cbn in *. congruence.
  - intros ->. exists u. split; [done|]. apply B. intros (t & k & (_ & Hn & _) & _). done.
Qed.
Lemma round_dynamic m cells : d_packed m cells -> (cells <> [] -> exists u, D_buildUnstructured m = Ok u /\ D_NewFrom u = Ok m) /\ (cells = [] -> exists u, D_buildUnstructured m = Ok u /\ D_NewFrom u = Throw).
Proof.
  intros H. destruct (d_build m cells H) as (u & E & S1 & S2 & Ec & _). destruct (from_dynamic u cells S1 S2) as (A & B). split.
  - intros Hne. exists u. split; [done|]. destruct H as (H1 & H2 & H3 & conn & connI & H4 & H5 & (H6 & H7)). destruct A as (m' & -> & (K1 & K2 & K3 & conn' & connI' & K4 & K5 & (K6 & K7)) & Ec').
    { exists (cm_type (dg_cm m)), (dg_cm m). split; [|done]. split; [done|]. split; [done|]. intros c Hc. split; [by apply H3|]. intros Hd. congruence. }
    f_equal. assert (dg_cm m' = dg_cm m) as Em. { destruct cells as [|c r]; [done|]. pose proof (H3 c ltac:(left)) as T1. pose proof (K3 c ltac:(left)) as T2. rewrite <- T2, T1, H1 in K1. by injection K1. }
    pose proof (psums_unique _ _ _ H7 K7). destruct m, m'. cbn in *. congruence.
  - intros ->. exists u. split; [done|]. apply B. intros (t & k & (_ & Hn & _) & _). done.
Qed.
(** ** Examples *)
Definition gt_um : umesh := UM 2 (Some gt_xy) (Some [3; 0; 1; 2; 3; 1; 3; 2]) (Some [0; 4; 8]) [3].
Lemma gt_um_stores : stores gt_um gt_tri_cells /\ typed gt_um gt_tri_cells.
Proof.
  split.
  - eexists _, _. split; [reflexivity|]. split; [reflexivity|]. split; [done|]. split; [done|]. intros i Hi. rewrite !zlen_fmap in Hi; change (zlen gt_tri_cells) with 2 in Hi; assert (i = 0 \/ i = 1 \/ i = 2) as [-> | [-> | ->]] by lia; done.
  - split; [split; [intros y Hy; inversion Hy|done]|]. intros t. split.
    + intros ->%elem_of_list_singleton. exists (3, [0; 1; 2]). split; [left|done].
    + intros (c & Hc & <-). apply elem_of_list_In in Hc. cbn in Hc. destruct Hc as [<-|[<-|[]]]; left.
Qed.
Lemma gt_tri_all : all_of 3 cm_TRI3 gt_tri_cells.
Proof. split; [done|]. split; [done|]. intros c Hc. apply elem_of_list_In in Hc. cbn in Hc. destruct Hc as [<-|[<-|[]]]; done. Qed.
Definition gt_quad : dgt := DG cm_POLYGON (Some gt_xy) (Some [0; 1; 3; 2]) (Some [0; 4]).
Lemma gt_quad_holds : d_packed gt_quad [(5, [0; 1; 3; 2])].
Proof.
  split; [done|]. split; [done|]. split; [intros c ->%elem_of_list_singleton; done|]. eexists _, _. split; [reflexivity|]. split; [reflexivity|]. split; [done|]. split; [done|]. intros i Hi. rewrite !zlen_fmap in Hi; change (zlen _) with 1 in Hi; assert (i = 0 \/ i = 1) as [-> | ->] by lia; done.
Qed.
