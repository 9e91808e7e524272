(** Proofs about the remapper: conservation, maximum principle, transposition, operations on the crude matrix. *)
From Coq Require Import QArith Qcanon Qcabs ZifyBool ZifyNat.
From Verif Require Import Base RemapModel RemapSpec RemapProofs RemapProofs2 RemapProofs3.
Local Open Scope Z_scope.

(** ** Sums over the entities *)
Lemma sumZ_pick n k x : 0 <= k < n -> sumZ n (fun i => if k =? i then x else 0%Qc) = x.
Proof.
  intros H. unfold sumZ. assert (E : seqZ 0 n = seqZ 0 k ++ k :: seqZ (k + 1) (n - k - 1)).
  { replace n with (k + (n - k)) at 1 by lia. rewrite seqZ_app by lia. f_equal. rewrite Z.add_0_l, seqZ_cons by lia. f_equal; f_equal; lia. }
  rewrite E, map_app, sumQ_app. cbn [map]. rewrite sumQ_cons, Z.eqb_refl, !sumQ_zero; [ring|..].
  - intros i Hi%elem_of_seqZ. by replace (k =? i) with false by lia.
  - intros i Hi%elem_of_seqZ. by replace (k =? i) with false by lia.
Qed.
Lemma sumZ_ext n g h : (forall i, 0 <= i < n -> g i = h i) -> sumZ n g = sumZ n h.
Proof. intros H. apply sumQ_ext. intros i Hi%elem_of_seqZ. apply H. lia. Qed.
Lemma sumZ_swap {A} n (L : list A) (key : A -> Z) (h : A -> Qc) : (forall e, e ∈ L -> 0 <= key e < n) ->
  sumZ n (fun k => sumQ (map (fun e => if key e =? k then h e else 0%Qc) L)) = sumQ (map h L).
Proof.
  induction L as [|e L IH]; intros H; cbn [map].
  - apply sumQ_zero. done.
  - rewrite sumQ_cons, <- IH by (intros; apply H; by apply elem_of_list_further).
    transitivity (sumZ n (fun k => if key e =? k then h e else 0%Qc) + sumZ n (fun k => sumQ (map (fun e => if key e =? k then h e else 0%Qc) L)))%Qc.
    + unfold sumZ. rewrite <- sumQ_add. apply sumQ_ext. intros k _. apply sumQ_cons.
    + rewrite sumZ_pick by (apply H, elem_of_list_here). done.
Qed.
Lemma total_by_rows n M h : (forall i j v, (i, j, v) ∈ coeffs M -> 0 <= i < n) ->
  total M h = sumZ n (fun i => total M (fun i' j v => if i' =? i then h i' j v else 0%Qc)).
Proof.
  intros H. unfold total. rewrite <- (sumZ_swap n (coeffs M) (fun '(i, _, _) => i)).
  - apply sumZ_ext. intros i Hi. f_equal. apply map_ext. by intros [[? ?] ?].
  - intros [[i j] v] He. by eapply H.
Qed.
Lemma total_by_cols n M h : columns_below n M -> total M h = sumZ n (fun j => total M (fun i j' v => if j' =? j then h i j' v else 0%Qc)).
Proof.
  intros H. unfold total. rewrite <- (sumZ_swap n (coeffs M) (fun '(_, j, _) => j)).
  - apply sumZ_ext. intros i Hi. f_equal. apply map_ext. by intros [[? ?] ?].
  - intros [[i j] v] He. by eapply H.
Qed.
Lemma total_ext M g h : (forall i j v, (i, j, v) ∈ coeffs M -> g i j v = h i j v) -> total M g = total M h.
Proof. intros H. apply sumQ_ext. intros [[i j] v]. apply H. Qed.
Lemma total_scale M k h : total M (fun i j v => k * h i j v)%Qc = (k * total M h)%Qc.
Proof. unfold total. rewrite <- sumQ_scale. f_equal. apply map_ext. by intros [[? ?] ?]. Qed.
Lemma unreached_zero M src trg i c : ~ row_reached M i -> interpolated M src trg i c = 0%Qc.
Proof.
  intros H. apply sumQ_zero. intros [[i' j] v] He. destruct (i' =? i) eqn:E; [|done]. apply Z.eqb_eq in E as ->. destruct H. by exists j, v.
Qed.
Lemma rows_in M i j v : (i, j, v) ∈ coeffs M -> 0 <= i < zlen M.
Proof. intros (r & Hr & _)%elem_of_coeffs. by apply zlook_Some_lt in Hr. Qed.

(** ExtensiveConservation. *)
Lemma sum_conserved M src trg n c : columns_below n M -> fl_nature src = ExtensiveConservation -> defined M src trg -> (forall j, 0 <= j < n -> col_reached M j) ->
  sumZ (zlen M) (fun i => interpolated M src trg i c) = sumZ n (fun j => val src j c).
Proof.
  intros Hc En Hd Hr. unfold interpolated.
  transitivity (total M (fun i j v => v / col_sum M j * val src j c)%Qc).
  { rewrite (total_by_rows (zlen M)) by apply rows_in. apply sumZ_ext. intros i Hi. apply total_ext. intros i' j v He. unfold divisor. by rewrite En. }
  rewrite (total_by_cols n) by done. apply sumZ_ext. intros j Hj.
  assert (Hne : col_sum M j <> 0%Qc).
  { destruct (Hr j Hj) as (i & v & He). specialize (Hd _ _ _ He). unfold divisor in Hd. by rewrite En in Hd. }
  transitivity (val src j c / col_sum M j * col_sum M j)%Qc; [|by field].
  unfold col_sum at 3. rewrite <- total_scale. apply total_ext. intros i j' v _. destruct (j' =? j) eqn:E; [|ring].
  apply Z.eqb_eq in E as ->. by field.
Qed.
(** IntensiveConservation. *)
Lemma integral_conserved M src trg n c : columns_below n M -> fl_nature src = IntensiveConservation -> defined M src trg ->
  sumZ (zlen M) (fun i => measure trg src i * interpolated M src trg i c)%Qc = sumZ n (fun j => col_sum M j * val src j c)%Qc.
Proof.
  intros Hc En Hd.
  transitivity (total M (fun i j v => v * val src j c)%Qc).
  - rewrite (total_by_rows (zlen M)) by apply rows_in. apply sumZ_ext. intros i Hi. unfold interpolated. rewrite <- total_scale. apply total_ext.
    intros i' j v He. destruct (i' =? i) eqn:E; [|ring]. apply Z.eqb_eq in E as ->. specialize (Hd _ _ _ He). unfold divisor in *. rewrite En in *. by field.
  - rewrite (total_by_cols n) by done. apply sumZ_ext. intros j Hj. rewrite Qcmult_comm. unfold col_sum. rewrite <- total_scale. apply total_ext.
    intros i j' v _. destruct (j' =? j) eqn:E; [|ring]. apply Z.eqb_eq in E as ->. ring.
Qed.
(** ExtensiveMaximum. *)
Lemma density_kept M src trg i c k : fl_nature src = ExtensiveMaximum -> defined M src trg ->
  (forall j, col_reached M j -> val src j c = k * measure src trg j)%Qc -> interpolated M src trg i c = (k * row_sum M i)%Qc.
Proof.
  intros En Hd Hk. unfold interpolated, row_sum. rewrite <- total_scale. apply total_ext. intros i' j v He. destruct (i' =? i) eqn:E; [|ring].
  apply Z.eqb_eq in E as ->. specialize (Hd _ _ _ He). unfold divisor in *. rewrite En in *. rewrite Hk by (by exists i, v). by field.
Qed.
(** IntensiveMaximum. *)
Lemma sumQ_le {A} (g h : A -> Qc) l : (forall x, x ∈ l -> g x <= h x)%Qc -> (sumQ (map g l) <= sumQ (map h l))%Qc.
Proof.
  induction l as [|x l IH]; intros H; cbn [map]; [apply Qcle_refl|]. rewrite !sumQ_cons. apply Qcplus_le_compat; [apply H, elem_of_list_here|].
  apply IH. intros. apply H. by apply elem_of_list_further.
Qed.
Lemma row_sum_positive M i : (forall i j v, (i, j, v) ∈ coeffs M -> 0 < v)%Qc -> row_reached M i -> (0 < row_sum M i)%Qc.
Proof.
  intros Hp Hr. apply reached_row in Hr as (r & Hr & Hne). rewrite (row_sum_ok M i r Hr).
  assert (Hv : forall v, v ∈ r.*2 -> (0 < v)%Qc). { intros v ([j v'] & -> & Hin)%elem_of_list_fmap. eapply Hp, elem_of_coeffs. eauto. }
  destruct r as [|[j v] r]; [done|]. cbn [fmap list_fmap snd] in *. rewrite sumQ_cons.
  assert (0 < v)%Qc by (apply Hv, elem_of_list_here). assert (0 <= sumQ r.*2)%Qc as Hs.
  { assert (E : sumQ (map (fun _ => 0%Qc) r.*2) = 0%Qc) by (by apply sumQ_zero). rewrite <- E. rewrite <- (map_id r.*2) at 2. apply sumQ_le. intros x Hx. apply Qclt_le_weak, Hv. by apply elem_of_list_further. }
  apply Qclt_le_trans with (v + 0)%Qc; [by rewrite Qcplus_0_r|]. apply Qcplus_le_compat; [apply Qcle_refl|done].
Qed.
Lemma positive_defined M src trg : fl_nature src = IntensiveMaximum -> (forall i j v, (i, j, v) ∈ coeffs M -> 0 < v)%Qc -> defined M src trg.
Proof.
  intros En Hp i j v He. unfold divisor. rewrite En. intros E. assert (Hr : row_reached M i) by (by exists j, v).
  pose proof (row_sum_positive M i Hp Hr) as H. rewrite E in H. by apply Qclt_not_eq in H.
Qed.
Lemma constant_kept M src trg i c k : fl_nature src = IntensiveMaximum -> defined M src trg -> row_reached M i ->
  (forall j, col_reached M j -> val src j c = k) -> interpolated M src trg i c = k.
Proof.
  intros En Hd (j0 & v0 & He0) Hk. assert (Hne : row_sum M i <> 0%Qc). { specialize (Hd _ _ _ He0). unfold divisor in Hd. by rewrite En in Hd. }
  transitivity (k / row_sum M i * row_sum M i)%Qc; [|by field]. unfold interpolated, row_sum at 2. rewrite <- total_scale. apply total_ext.
  intros i' j v He. destruct (i' =? i) eqn:E; [|ring]. apply Z.eqb_eq in E as ->. unfold divisor. rewrite En. rewrite Hk by (by exists i, v). by field.
Qed.
Lemma between M src trg i c lo hi : fl_nature src = IntensiveMaximum -> (forall i j v, (i, j, v) ∈ coeffs M -> 0 < v)%Qc -> row_reached M i ->
  (forall j v, (i, j, v) ∈ coeffs M -> lo <= val src j c <= hi)%Qc -> (lo <= interpolated M src trg i c <= hi)%Qc.
Proof.
  intros En Hp Hr Hb. pose proof (row_sum_positive M i Hp Hr) as Hpos.
  assert (Hne : row_sum M i <> 0%Qc). { intros E. rewrite E in Hpos. by apply Qclt_not_eq in Hpos. }
  assert (Hk : forall k, total M (fun i' j v => if i' =? i then v / row_sum M i * k else 0)%Qc = k).
  { intros k. transitivity (k / row_sum M i * row_sum M i)%Qc; [|by field]. unfold row_sum at 3. rewrite <- total_scale. apply total_ext.
    intros i' j v He. destruct (i' =? i) eqn:E; [|ring]. by field. }
  assert (Hw : forall j v, (i, j, v) ∈ coeffs M -> (0 <= v / row_sum M i)%Qc).
  { intros j v He. unfold Qcdiv. replace 0%Qc with (0 * / row_sum M i)%Qc by ring. apply Qcmult_le_compat_r; [by eapply Qclt_le_weak, Hp|].
    apply Qclt_le_weak. apply Qcnot_le_lt. intros Hle. apply (Qcmult_le_compat_r _ _ (row_sum M i)) in Hle; [|by apply Qclt_le_weak].
    rewrite (Qcmult_comm (/ _)), Qcmult_inv_r in Hle by done. rewrite Qcmult_0_l in Hle. by apply Hle. }
  rewrite <- (Hk lo) at 1. rewrite <- (Hk hi). unfold interpolated, total. split; apply sumQ_le; intros [[i' j] v] He; (destruct (i' =? i) eqn:E; [|apply Qcle_refl]);
    apply Z.eqb_eq in E as ->; unfold divisor; rewrite En; rewrite !(Qcmult_comm (v / row_sum M i)%Qc); (apply Qcmult_le_compat_r; [by eapply Hb|by eapply Hw]).
Qed.
