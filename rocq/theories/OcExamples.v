From stdpp Require Import relations.
From Verif Require Import Base DataArray CellModel CellTable UmModel UmSpec UcProofs6 DsModel DsSpec DsProofs6 DsProofs7 OcModel OcSpec.

(** A closed part (cells 0, 2 and 4), an open one with a quadratic cell in the middle (cells 1, 3 and 5), and a cell alone. *)
Definition lines : list cell := [(NORM_SEG2, [0; 1]); (NORM_SEG2, [4; 3]); (NORM_SEG2, [2; 0]); (NORM_SEG2, [6; 5]); (NORM_SEG2, [1; 2]); (NORM_SEG3, [5; 4; 7]); (NORM_SEG2, [8; 9])].
(** A line of four segments seen from its middle. *)
Definition line4 : list cell := [(NORM_SEG2, [2; 3]); (NORM_SEG2, [0; 1]); (NORM_SEG3, [4; 3; 5]); (NORM_SEG2, [1; 2])].
(** A segment that starts from the middle of a quadratic one, and another one elsewhere: no node is in three cells. *)
Definition tee : list cell := [(NORM_SEG3, [0; 1; 2]); (NORM_SEG2, [2; 3]); (NORM_SEG2, [4; 5])].
Definition star : list cell := [(NORM_SEG2, [0; 1]); (NORM_SEG2, [0; 2]); (NORM_SEG2, [3; 0])].

Definition properb (nb : Z) (c : cell) : bool :=
  match GetCellModel c.1 with Ok k => (cm_dim k =? 1) && negb (cm_dyn k) && (zlen c.2 =? cm_nbpts k) && negb (c.1 =? NORM_POLYL) && negb (c.1 =? NORM_POLYHED) && bool_decide (NoDup c.2) && forallb (fun n => (0 <=? n) && (n <? nb)) c.2 | _ => false end.
Lemma properb_ok nb cells : forallb (properb nb) cells = true -> Forall (proper 1 nb) cells.
Proof.
  intros H. apply Forall_forall. intros c Hc. rewrite forallb_forall in H. specialize (H c ltac:(by apply elem_of_list_In)). unfold properb in H.
  destruct (GetCellModel c.1) as [k| | |] eqn:E; try done. rewrite !andb_true_iff in H. destruct H as ((((((H1 & H2) & H3) & H4) & H5) & H6) & H7). apply bool_decide_eq_true in H6. rewrite forallb_forall in H7.
  assert (Hdy : cm_dyn k = false) by (by destruct (cm_dyn k)). exists k. split; [done|]. split; [lia|]. split; [lia|]. split; [intros _; lia|]. replace (c.1 =? NORM_POLYHED) with false by lia. split; [done|]. split; [intros n Hn; apply elem_of_list_In, H7 in Hn; lia|].
  split; intros Hp; rewrite Hp in E; vm_compute in E; injection E as <-; done.
Qed.

(** The conditions of a line, by computation. *)
Definition lineb (cells : list cell) : bool :=
  let ids := seqZ 0 (zlen cells) in
  forallb (fun i => forallb (fun j => forallb (fun k => match cells @ i, cells @ j, cells @ k with Some ci, Some cj, Some ck => (i =? j) || (j =? k) || (i =? k) || forallb (fun n => negb (bool_decide (n ∈ cj.2) && bool_decide (n ∈ ck.2))) ci.2 | _, _, _ => true end) ids) ids) ids &&
  forallb (fun i => forallb (fun j => match cells @ i, cells @ j with Some ci, Some cj => forallb (fun n => negb (bool_decide (n ∈ cj.2)) || bool_decide (n ∈ take 2 cj.2)) (take 2 ci.2) | _, _ => true end) ids) ids.
Lemma lineb_ok cells : lineb cells = true -> is_line cells.
Proof.
  unfold lineb. intros [HA HB]%andb_true_iff. rewrite forallb_forall in HA, HB.
  assert (R : forall i (c : cell), cells @ i = Some c -> In i (seqZ 0 (zlen cells))) by (intros i c H; apply zlook_Some_lt in H; apply elem_of_list_In, elem_of_seqZ; lia). split.
  - intros n i j k ci cj ck Hi Hj Hk Ni Nj Nk. pose proof (HA i (R _ _ Hi)) as H. cbn beta in H. rewrite forallb_forall in H. specialize (H j (R _ _ Hj)). cbn beta in H. rewrite forallb_forall in H. specialize (H k (R _ _ Hk)). cbn beta in H. rewrite Hi, Hj, Hk in H.
    rewrite !orb_true_iff in H. destruct H as [[[H|H]|H]|H]; [lia..|]. rewrite forallb_forall in H. specialize (H n ltac:(by apply elem_of_list_In)). rewrite !bool_decide_eq_true_2 in H by done. done.
  - intros n i j c (ci & Hi & Ni) Hj Nj. pose proof (HB i (R _ _ Hi)) as H. cbn beta in H. rewrite forallb_forall in H. specialize (H j (R _ _ Hj)). cbn beta in H. rewrite Hi, Hj in H. rewrite forallb_forall in H. specialize (H n ltac:(by apply elem_of_list_In)).
    rewrite (bool_decide_eq_true_2 (n ∈ c.2)) in H by done. by apply bool_decide_eq_true in H.
Qed.
Lemma lines_ok : Forall (proper 1 10) lines /\ is_line lines.
Proof. split; [apply properb_ok; vm_compute; done|apply lineb_ok; vm_compute; done]. Qed.
Lemma line4_ok : Forall (proper 1 6) line4 /\ is_line line4 /\ connected line4.
Proof.
  split; [apply properb_ok; vm_compute; done|]. split; [apply lineb_ok; vm_compute; done|].
  assert (T : forall i j n c c', line4 @ i = Some c -> line4 @ j = Some c' -> n ∈ take 2 c.2 -> n ∈ take 2 c'.2 -> touch line4 i j) by (intros i j n c c' H1 H2 H3 H4; exists n; split; eexists; done).
  assert (T02 : touch line4 0 2) by (eapply (T 0 2 3); [done|done|cbn; set_solver|cbn; set_solver]).
  assert (T03 : touch line4 0 3) by (eapply (T 0 3 2); [done|done|cbn; set_solver|cbn; set_solver]).
  assert (T31 : touch line4 3 1) by (eapply (T 3 1 1); [done|done|cbn; set_solver|cbn; set_solver]).
  assert (Sy : forall i j, touch line4 i j -> touch line4 j i) by (intros i j (n & ? & ?); by exists n).
  assert (U : forall i, 0 <= i < 4 -> rtc (touch line4) 0 i /\ rtc (touch line4) i 0).
  { intros i Hi. assert (i = 0 \/ i = 1 \/ i = 2 \/ i = 3) as [->|[->|[->| ->]]] by lia.
    - done.
    - split; [eapply rtc_l; [exact T03|by apply rtc_once]|eapply rtc_l; [apply Sy, T31|apply rtc_once, Sy, T03]].
    - split; apply rtc_once; auto.
    - split; apply rtc_once; auto. }
  intros i j Hi Hj. change (zlen line4) with 4 in *. etrans; [apply (U i Hi)|apply (U j Hj)].
Qed.
Lemma tee_bad : ~ forall m cells nb, stores m cells -> has_nodes m nb -> um_dim m = 1 -> Forall (proper 1 nb) cells ->
  (forall n i j k (ci cj ck : cell), cells @ i = Some ci -> cells @ j = Some cj -> cells @ k = Some ck -> n ∈ ci.2 -> n ∈ cj.2 -> n ∈ ck.2 -> i = j \/ j = k \/ i = k) ->
  orderConsecutiveCells1D m <> UB.
Proof.
  intros H. destruct (mk_ok 1 6 tee ltac:(lia)) as (H1 & _ & H2). apply (H (mk 1 6 tee) tee 6 H1 H2 eq_refl); [apply properb_ok; vm_compute; done| |vm_compute; done].
  assert (R : forall i (c : cell), tee @ i = Some c -> i = 0 /\ c = (NORM_SEG3, [0; 1; 2]) \/ i = 1 /\ c = (NORM_SEG2, [2; 3]) \/ i = 2 /\ c = (NORM_SEG2, [4; 5])).
  { intros i c Hi. pose proof (zlook_Some_lt _ _ _ Hi) as L. change (zlen tee) with 3 in L. assert (i = 0 \/ i = 1 \/ i = 2) as [->|[->| ->]] by lia; cbn in Hi; injection Hi as <-; tauto. }
  intros n i j k ci cj ck Hi Hj Hk Ni Nj Nk. apply R in Hi, Hj, Hk. destruct Hi as [[-> ->]|[[-> ->]|[-> ->]]], Hj as [[-> ->]|[[-> ->]|[-> ->]]], Hk as [[-> ->]|[[-> ->]|[-> ->]]]; auto; exfalso; cbn in Ni, Nj, Nk; set_solver by lia.
Qed.
